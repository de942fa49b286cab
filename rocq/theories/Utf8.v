(** Facts about UTF-8 and decimal/hexadecimal formatting used by the proofs. *)
From Verif Require Import Base.
Local Open Scope N_scope.

Ltac Nb := repeat match goal with
  | H : (_ <? _) = true |- _ => apply N.ltb_lt in H
  | H : (_ <? _) = false |- _ => apply N.ltb_ge in H
  | H : (_ <=? _) = true |- _ => apply N.leb_le in H
  | H : (_ <=? _) = false |- _ => apply N.leb_gt in H
  | H : (_ =? _) = true |- _ => apply N.eqb_eq in H
  | H : (_ =? _) = false |- _ => apply N.eqb_neq in H
  | H : (_ && _)%bool = true |- _ => apply andb_true_iff in H; destruct H
  | H : (_ || _)%bool = false |- _ => apply orb_false_iff in H; destruct H
  | |- (_ <? _) = true => apply N.ltb_lt
  | |- (_ <? _) = false => apply N.ltb_ge
  | |- (_ <=? _) = true => apply N.leb_le
  | |- (_ <=? _) = false => apply N.leb_gt
  | |- (_ =? _) = true => apply N.eqb_eq
  | |- (_ =? _) = false => apply N.eqb_neq
  | |- (_ && _)%bool = true => apply andb_true_intro; split
  end.

Ltac nb := match goal with
  | |- (_ <? _) = true => apply N.ltb_lt
  | |- (_ <? _) = false => apply N.ltb_ge
  | |- (_ <=? _) = true => apply N.leb_le
  | |- (_ <=? _) = false => apply N.leb_gt
  | |- (_ =? _) = true => apply N.eqb_eq
  | |- (_ =? _) = false => apply N.eqb_neq
  | |- (_ && _)%bool = true => apply andb_true_intro; split; nb
  | |- is_cont _ = true => unfold is_cont; nb
  end; try lia.

Lemma utf8_char_len c : length (utf8_char c) = utf8_len c.
Proof. unfold utf8_char, utf8_len. repeat destruct (_ <? _); reflexivity. Qed.

Lemma utf8_len_pos c : (1 <= utf8_len c)%nat.
Proof. unfold utf8_len. repeat destruct (_ <? _); lia. Qed.

Lemma utf8_length s : length (utf8 s) = str_bytes s.
Proof.
  unfold utf8, str_bytes. induction s as [|c s IH]; [reflexivity|].
  cbn [flat_map map list_sum fold_right]. rewrite app_length, IH, utf8_char_len. reflexivity.
Qed.

Lemma utf8_app a b : utf8 (a ++ b) = utf8 a ++ utf8 b.
Proof. apply flat_map_app. Qed.

Lemma divmod64 c : c / 64 * 64 + c mod 64 = c.
Proof. rewrite (N.div_mod c 64) at 3 by lia. lia. Qed.

Lemma utf8_step_char c r : scalar c = true -> utf8_step (utf8_char c ++ r) = Some (c, r).
Proof.
  intros Hs. unfold utf8_char.
  pose proof (N.mod_lt c 64 ltac:(lia)) as Hm0.
  pose proof (divmod64 c) as Hd0.
  destruct (c <? 128) eqn:E1.
  { cbn. rewrite E1. reflexivity. }
  destruct (c <? 2048) eqn:E2; Nb.
  { assert (c / 64 < 32) by (apply N.div_lt_upper_bound; lia).
    assert (2 <= c / 64) by (apply N.div_le_lower_bound; lia).
    set (q := c / 64) in *. set (m := c mod 64) in *.
    cbn [app utf8_step].
    replace (192 + q <? 128) with false by (symmetry; nb).
    replace (192 + q <? 194) with false by (symmetry; nb).
    replace (192 + q <? 224) with true by (symmetry; nb).
    replace (is_cont (128 + m)) with true by (symmetry; nb).
    do 2 f_equal. lia. }
  pose proof (divmod64 (c / 64)) as Hd1.
  pose proof (N.mod_lt (c / 64) 64 ltac:(lia)) as Hm1.
  assert (E4096 : c / 4096 = c / 64 / 64) by (rewrite N.div_div by lia; reflexivity).
  destruct (c <? 65536) eqn:E3; Nb.
  { rewrite E4096. 
    assert (c / 64 / 64 < 16) by (rewrite <- E4096; apply N.div_lt_upper_bound; lia).
    set (q := c / 64 / 64) in *. set (m1 := (c / 64) mod 64) in *. set (m := c mod 64) in *.
    cbn [app utf8_step].
    replace (224 + q <? 128) with false by (symmetry; nb).
    replace (224 + q <? 194) with false by (symmetry; nb).
    replace (224 + q <? 224) with false by (symmetry; nb).
    replace (224 + q <? 240) with true by (symmetry; nb).
    replace (is_cont (128 + m)) with true by (symmetry; nb).
    replace (is_cont (128 + m1)) with true by (symmetry; nb).
    replace ((224 + q - 224) * 4096 + (128 + m1 - 128) * 64 + (128 + m - 128)) with c by lia.
    rewrite Hs. replace (2048 <=? c) with true by (symmetry; nb). reflexivity. }
  pose proof (divmod64 (c / 64 / 64)) as Hd2.
  pose proof (N.mod_lt (c / 64 / 64) 64 ltac:(lia)) as Hm2.
  assert (Ebig : c / 262144 = c / 64 / 64 / 64) by (rewrite !N.div_div by lia; reflexivity).
  assert (c < 1114112) by (apply orb_true_iff in Hs; destruct Hs as [Hs|Hs]; [apply N.ltb_lt in Hs; lia | apply andb_true_iff in Hs; destruct Hs as [_ Hs]; apply N.ltb_lt in Hs; exact Hs]).
  rewrite E4096, Ebig.
  assert (c / 64 / 64 / 64 < 5) by (rewrite <- Ebig; apply N.div_lt_upper_bound; lia).
  set (q := c / 64 / 64 / 64) in *. set (m2 := (c / 64 / 64) mod 64) in *.
  set (m1 := (c / 64) mod 64) in *. set (m := c mod 64) in *.
  cbn [app utf8_step].
  replace (240 + q <? 128) with false by (symmetry; nb).
  replace (240 + q <? 194) with false by (symmetry; nb).
  replace (240 + q <? 224) with false by (symmetry; nb).
  replace (240 + q <? 240) with false by (symmetry; nb).
  replace (240 + q <? 245) with true by (symmetry; nb).
  replace (is_cont (128 + m)) with true by (symmetry; nb).
  replace (is_cont (128 + m1)) with true by (symmetry; nb).
  replace (is_cont (128 + m2)) with true by (symmetry; nb).
  replace ((240 + q - 240) * 262144 + (128 + m2 - 128) * 4096 + (128 + m1 - 128) * 64 + (128 + m - 128)) with c by lia.
  rewrite Hs. replace (65536 <=? c) with true by (symmetry; nb). reflexivity.
Qed.

Lemma utf8_decode_utf8 s : Forall (fun c => scalar c = true) s ->
  forall n, (str_bytes s <= n)%nat -> utf8_decode n (utf8 s) = Some s.
Proof.
  induction 1 as [|c s Hc Hs IH]; intros n Hn.
  - destruct n; reflexivity.
  - unfold str_bytes in Hn. cbn [map list_sum fold_right] in Hn. fold (list_sum (map utf8_len s)) in Hn.
    fold (str_bytes s) in Hn. pose proof (utf8_len_pos c).
    change (utf8 (c :: s)) with (utf8_char c ++ utf8 s).
    destruct n as [|n]; [lia|].
    assert (utf8_char c ++ utf8 s <> []) as Hne.
    { intros Heq. apply (f_equal (@length N)) in Heq. rewrite app_length, utf8_char_len in Heq. cbn in Heq. lia. }
    destruct (utf8_char c ++ utf8 s) eqn:Heq; [congruence|]. rewrite <- Heq.
    cbn [utf8_decode]. rewrite Heq. rewrite <- Heq. rewrite utf8_step_char by assumption.
    rewrite IH by lia. reflexivity.
Qed.

Lemma from_utf8_utf8 s : Forall (fun c => scalar c = true) s -> from_utf8 (utf8 s) = Some s.
Proof. intros H. apply utf8_decode_utf8; [assumption|]. rewrite utf8_length. lia. Qed.

(** Ranges of the formatted digits. *)
Definition ascii_str (s : str) : Prop := Forall (fun c => c < 128) s.

Lemma dec_loop_digits n : forall fuel acc, Forall (fun c => is_digit c = true) acc ->
  Forall (fun c => is_digit c = true) (dec_loop fuel n acc).
Proof.
  intros fuel. revert n. induction fuel as [|fuel IH]; intros n acc H; cbn [dec_loop]; [assumption|].
  assert (is_digit (ch "0" + n mod 10) = true).
  { pose proof (N.mod_lt n 10 ltac:(lia)). unfold is_digit, in_range. change (ch "0") with 48. change (ch "9") with 57. generalize dependent (n mod 10). intros m Hm. Nb; lia. }
  destruct (n <? 10); [|apply IH]; constructor; assumption.
Qed.
Lemma dec_N_digits n : Forall (fun c => is_digit c = true) (dec_N n).
Proof. apply dec_loop_digits. constructor. Qed.
Lemma digit_ascii c : is_digit c = true -> c < 128.
Proof. unfold is_digit, in_range. cbn. intros. Nb. lia. Qed.
Lemma dec_N_ascii n : ascii_str (dec_N n).
Proof. eapply Forall_impl; [|apply dec_N_digits]. intros c. apply digit_ascii. Qed.
Lemma dec_Z_ascii z : ascii_str (dec_Z z).
Proof.
  destruct z; cbn [dec_Z]; try apply dec_N_ascii. constructor; [cbn; lia|apply dec_N_ascii].
Qed.

Lemma hex_loop_ascii n : forall fuel acc, ascii_str acc -> ascii_str (hex_loop fuel n acc).
Proof.
  intros fuel. revert n. induction fuel as [|fuel IH]; intros n acc H; cbn [hex_loop]; [assumption|].
  assert (hex_digit (n mod 16) < 128).
  { pose proof (N.mod_lt n 16 ltac:(lia)). generalize dependent (n mod 16). intros m Hm. unfold hex_digit. change (ch "0") with 48. change (ch "A") with 65. destruct (_ <? _) eqn:?; Nb; lia. }
  destruct (n <? 16); [|apply IH]; constructor; assumption.
Qed.
Lemma hex2_ascii n : ascii_str (hex2_N n).
Proof.
  unfold hex2_N. pose proof (hex_loop_ascii n (S (N.to_nat (N.size n))) [] ltac:(constructor)) as H.
  destruct (hex_loop _ _ _) as [|d [|e l]]; try assumption.
  constructor; [cbn; lia|assumption].
Qed.

