(** The decimal and hexadecimal formatting functions of [Base] are what they should be: the
    digits denote the number and there are no superfluous leading zeros. *)
From Verif Require Import Base Utf8.
Local Open Scope N_scope.

(** The value of a string of decimal digits, and of upper-case hexadecimal digits. *)
Fixpoint decimal_value (acc : N) (x : str) : N :=
  match x with [] => acc | c :: x => decimal_value (acc * 10 + (c - ch "0")) x end.
Definition hex_digit_value (c : N) : N := if is_digit c then c - ch "0" else c - ch "A" + 10.
Fixpoint hex_value (acc : N) (x : str) : N :=
  match x with [] => acc | c :: x => hex_value (acc * 16 + hex_digit_value c) x end.

Lemma dec_loop_spec fuel : forall n acc a, (n < 10 ^ N.of_nat fuel) ->
  exists d, dec_loop fuel n acc = d ++ acc /\ decimal_value a d = a * 10 ^ N.of_nat (length d) + n /\
            (n <> 0 -> match d with c :: _ => c <> ch "0" | [] => False end) /\ (n = 0 -> (fuel > 0)%nat -> d = [ch "0"]).
Proof.
  induction fuel as [|fuel IH]; intros n acc a Hn.
  - exists []. cbn in *. assert (n = 0) by lia. subst. repeat split; try lia.
  - cbn [dec_loop]. rewrite Nat2N.inj_succ, N.pow_succ_r' in Hn.
    pose proof (N.mod_lt n 10 ltac:(lia)) as Hm. pose proof (N.div_mod n 10 ltac:(lia)) as Hd.
    destruct (N.ltb_spec n 10) as [Hlt|Hge].
    + rewrite N.mod_small by assumption. exists [ch "0" + n]. split; [reflexivity|]. change (ch "0") with 48. cbn [decimal_value length].
      change (10 ^ N.of_nat 1) with 10. split; [rewrite (N.add_comm 48), N.add_sub; lia|]. split; [lia|]. intros -> _. reflexivity.
    + assert (Hq : n / 10 < 10 ^ N.of_nat fuel) by (apply N.div_lt_upper_bound; lia).
      assert (Hnz : n / 10 <> 0) by (intros H0; rewrite H0 in Hd; lia).
      destruct (IH (n / 10) ((ch "0" + n mod 10) :: acc) a Hq) as (d & He & Hv & Hz & _).
      exists (d ++ [ch "0" + n mod 10]). rewrite He, <- app_assoc. split; [reflexivity|].
      assert (Happ : forall l b c, decimal_value b (l ++ [c]) = decimal_value b l * 10 + (c - ch "0")).
      { induction l; intros; cbn; auto. }
      rewrite Happ, Hv, app_length. cbn [length]. rewrite Nat.add_1_r, Nat2N.inj_succ, N.pow_succ_r'.
      change (ch "0") with 48. rewrite (N.add_comm 48), N.add_sub.
      split; [lia|]. split; [|lia]. intros _. specialize (Hz Hnz). destruct d; [contradiction|exact Hz].
Qed.
Lemma size10 n : n < 10 ^ N.of_nat (S (N.to_nat (N.size n))).
Proof.
  rewrite Nat2N.inj_succ, N2Nat.id. pose proof (N.size_gt n).
  apply N.lt_le_trans with (2 ^ N.size n); [assumption|].
  apply N.le_trans with (10 ^ N.size n); [apply N.pow_le_mono_l; lia|]. apply N.pow_le_mono_r; lia.
Qed.

(** [dec_N n] consists of digits, denotes [n] and does not start with ['0'] unless [n = 0]. *)
Theorem dec_N_correct : forall n, Forall (fun c => is_digit c = true) (dec_N n) /\ decimal_value 0 (dec_N n) = n /\
  (n = 0 -> dec_N n = [ch "0"]) /\ (n <> 0 -> match dec_N n with c :: _ => c <> ch "0" | [] => False end).
Proof.
  intros n. split; [apply dec_N_digits|]. unfold dec_N.
  destruct (dec_loop_spec _ n [] 0 (size10 n)) as (d & He & Hv & Hz & H0). rewrite He, app_nil_r.
  split; [rewrite Hv; lia|]. split; [intros Hn; apply H0; [exact Hn|lia]|exact Hz].
Qed.
Print Assumptions dec_N_correct.

Lemma hex_loop_spec fuel : forall n acc a, (n < 16 ^ N.of_nat fuel) ->
  exists d, hex_loop fuel n acc = d ++ acc /\ hex_value a d = a * 16 ^ N.of_nat (length d) + n /\
            (n <> 0 -> match d with c :: _ => c <> ch "0" | [] => False end) /\ ((fuel > 0)%nat -> d <> []) /\
            Forall (fun c => is_digit c || in_range (ch "A") (ch "F") c = true) d.
Proof.
  assert (Hdig : forall m, m < 16 -> hex_digit_value (hex_digit m) = m /\ (m <> 0 -> hex_digit m <> ch "0") /\
                           is_digit (hex_digit m) || in_range (ch "A") (ch "F") (hex_digit m) = true).
  { intros m Hm. assert (Hin : In m (map N.of_nat (seq 0 16))).
    { apply in_map_iff. exists (N.to_nat m). split; [apply N2Nat.id|]. apply in_seq. lia. }
    cbn in Hin. repeat (destruct Hin as [<-|Hin]; [repeat split; discriminate || congruence|]). contradiction. }
  induction fuel as [|fuel IH]; intros n acc a Hn.
  - exists []. cbn in *. assert (n = 0) by lia. subst. repeat split; try lia. constructor.
  - cbn [hex_loop]. rewrite Nat2N.inj_succ, N.pow_succ_r' in Hn.
    pose proof (N.mod_lt n 16 ltac:(lia)) as Hm. pose proof (N.div_mod n 16 ltac:(lia)) as Hd.
    destruct (Hdig _ Hm) as (Hv0 & Hz0 & Hr0).
    destruct (N.ltb_spec n 16) as [Hlt|Hge].
    + rewrite N.mod_small in * by assumption. exists [hex_digit n]. split; [reflexivity|]. cbn [hex_value length].
      change (16 ^ N.of_nat 1) with 16. rewrite Hv0. split; [lia|]. split; [exact Hz0|]. split; [discriminate|].
      constructor; [exact Hr0|constructor].
    + assert (Hq : n / 16 < 16 ^ N.of_nat fuel) by (apply N.div_lt_upper_bound; lia).
      assert (Hnz : n / 16 <> 0) by (intros H0; rewrite H0 in Hd; lia).
      destruct (IH (n / 16) (hex_digit (n mod 16) :: acc) a Hq) as (d & He & Hv & Hz & _ & Hf).
      exists (d ++ [hex_digit (n mod 16)]). rewrite He, <- app_assoc. split; [reflexivity|].
      assert (Happ : forall l b c, hex_value b (l ++ [c]) = hex_value b l * 16 + hex_digit_value c).
      { induction l; intros; cbn; auto. }
      rewrite Happ, Hv, app_length. cbn [length]. rewrite Nat.add_1_r, Nat2N.inj_succ, N.pow_succ_r', Hv0.
      split; [lia|]. split; [|split].
      * intros _. specialize (Hz Hnz). destruct d; [contradiction|exact Hz].
      * intros _. destruct d; discriminate.
      * apply Forall_app. split; [exact Hf|]. constructor; [exact Hr0|constructor].
Qed.
Lemma size16 n : n < 16 ^ N.of_nat (S (N.to_nat (N.size n))).
Proof.
  rewrite Nat2N.inj_succ, N2Nat.id. pose proof (N.size_gt n).
  apply N.lt_le_trans with (2 ^ N.size n); [assumption|].
  apply N.le_trans with (16 ^ N.size n); [apply N.pow_le_mono_l; lia|]. apply N.pow_le_mono_r; lia.
Qed.
(** [hex2_N n] consists of at least two upper-case hexadecimal digits and denotes [n]; beyond
    two digits there is no leading zero. *)
Theorem hex2_N_correct : forall n,
  Forall (fun c => is_digit c || in_range (ch "A") (ch "F") c = true) (hex2_N n) /\ hex_value 0 (hex2_N n) = n /\
  (2 <= length (hex2_N n))%nat /\ ((2 < length (hex2_N n))%nat -> match hex2_N n with c :: _ => c <> ch "0" | [] => False end).
Proof.
  intros n. unfold hex2_N. destruct (hex_loop_spec _ n [] 0 (size16 n)) as (d & He & Hv & Hz & H0 & Hf). rewrite He, app_nil_r.
  specialize (H0 ltac:(lia)). rewrite N.mul_0_l, N.add_0_l in Hv.
  destruct d as [|x [|y d]]; [congruence| |].
  - repeat split; [constructor; [reflexivity|exact Hf]|exact Hv|cbn; lia|cbn; lia].
  - repeat split; [exact Hf|exact Hv|cbn; lia|]. intros _. apply Hz. intros ->.
    assert (Hh : hex_loop (S (N.to_nat (N.size 0))) 0 [] = [ch "0"]) by reflexivity. rewrite Hh, app_nil_r in He. discriminate.
Qed.
Print Assumptions hex2_N_correct.
