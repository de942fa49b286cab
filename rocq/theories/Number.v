(** The number encoding, as a specification separate from the parser, and the exact behaviour of
    [demangle_number] in terms of it. *)
From Verif Require Import Parser Lex.

(** ** Specification *)
(** The value of a string of the letters [A]..[P] read as hexadecimal digits, most significant
    first. *)
Fixpoint letters_value (acc : N) (l : str) : N :=
  match l with [] => acc | c :: l => letters_value (acc * 16 + (c - ch "A"))%N l end.
(** The text of a non-negative number: one digit [d] for [d + 1], or letters closed by ['@']
    for their hexadecimal value modulo [2^64]. *)
Inductive num_text : str -> N -> Prop :=
| num_digit : forall d, (d < 10)%N -> num_text [(ch "0" + d)%N] (d + 1)%N
| num_letters : forall l, Forall (fun c => (ch "A" <= c <= ch "P")%N) l ->
    num_text (l ++ L "@") (letters_value 0 l mod 2 ^ 64)%N.
(** With a sign: ['?'] in front means negative. *)
Definition signed_text (t : str) (v : N) (neg : bool) : Prop :=
  exists d, num_text d v /\ t = (if neg then L "?" else []) ++ d.

(** A concrete encoder: ["A@"] for 0, a digit for 1..10, letters otherwise. *)
Fixpoint letters_loop (fuel : nat) (n : N) (acc : str) : str :=
  match fuel with
  | O => acc
  | S fuel => if (n =? 0)%N then acc else letters_loop fuel (n / 16)%N ((ch "A" + n mod 16)%N :: acc)
  end.
Definition letters (n : N) : str := letters_loop (S (N.to_nat (N.size n))) n [].
Definition encode_number (n : N) : str :=
  if (n =? 0)%N then L "A@"
  else if (n <=? 10)%N then [(ch "0" + (n - 1))%N]
  else letters n ++ L "@".

(** ** The encoder produces number texts *)
Lemma letters_value_app a l m : letters_value a (l ++ m) = letters_value (letters_value a l) m.
Proof. revert a. induction l; intros; cbn; auto. Qed.
Lemma letters_value_shift a l : letters_value a l = (a * 16 ^ N.of_nat (length l) + letters_value 0 l)%N.
Proof.
  revert a. induction l as [|c l IH]; intros a; cbn [letters_value length].
  - rewrite N.mul_1_r. lia.
  - rewrite IH. rewrite (IH (0 * 16 + (c - ch "A"))%N). rewrite Nat2N.inj_succ, N.pow_succ_r'. lia.
Qed.
Lemma letters_loop_spec fuel : forall n acc, (n < 16 ^ N.of_nat fuel)%N ->
  exists l, letters_loop fuel n acc = l ++ acc /\ letters_value 0 l = n /\ Forall (fun c => (ch "A" <= c <= ch "P")%N) l /\
            (n <> 0%N -> l <> []).
Proof.
  induction fuel as [|fuel IH]; intros n acc Hn; cbn [letters_loop].
  - exists []. cbn in Hn. assert (n = 0%N) by lia. subst. repeat split; auto.
  - destruct (N.eqb_spec n 0) as [->|Hz]; [exists []; repeat split; auto|].
    rewrite Nat2N.inj_succ, N.pow_succ_r' in Hn.
    assert (Hd : (n / 16 < 16 ^ N.of_nat fuel)%N) by (apply N.div_lt_upper_bound; lia).
    destruct (IH (n / 16)%N ((ch "A" + n mod 16)%N :: acc) Hd) as (l & Hl & Hv & Hf & _).
    pose proof (N.mod_lt n 16 ltac:(lia)). pose proof (N.div_mod n 16 ltac:(lia)).
    exists (l ++ [(ch "A" + n mod 16)%N]). rewrite Hl, <- app_assoc. split; [reflexivity|]. split; [|split].
    + rewrite letters_value_app, Hv. cbn [letters_value]. change (ch "A") with 65%N. rewrite (N.add_comm 65), N.add_sub, N.mul_comm, <- H0. reflexivity.
    + apply Forall_app. split; [assumption|]. constructor; [|constructor]. change (ch "A") with 65%N. change (ch "P") with 80%N. clear - H. cbv beta. split; [apply N.le_add_r|]. lia.
    + intros _. destruct l; discriminate.
Qed.
Lemma size_bound n : (n < 16 ^ N.of_nat (S (N.to_nat (N.size n))))%N.
Proof.
  rewrite Nat2N.inj_succ, N2Nat.id. pose proof (N.size_gt n).
  apply N.lt_le_trans with (2 ^ N.size n)%N; [assumption|].
  apply N.le_trans with (16 ^ N.size n)%N; [apply N.pow_le_mono_l; lia|]. apply N.pow_le_mono_r; lia.
Qed.
Lemma letters_spec n : letters_value 0 (letters n) = n /\ Forall (fun c => (ch "A" <= c <= ch "P")%N) (letters n).
Proof.
  destruct (letters_loop_spec _ n [] (size_bound n)) as (l & Hl & Hv & Hf & _). unfold letters. rewrite Hl, app_nil_r. auto.
Qed.
Lemma encode_number_text n : (n < 2 ^ 64)%N -> num_text (encode_number n) n.
Proof.
  intros Hn. unfold encode_number. destruct (N.eqb_spec n 0) as [->|Hz].
  - apply (num_letters [ch "A"]). repeat constructor; discriminate.
  - destruct (N.leb_spec n 10).
    + replace n with ((n - 1) + 1)%N at 2 by lia. constructor. lia.
    + destruct (letters_spec n) as [Hv Hf]. rewrite <- (N.mod_small n (2 ^ 64)) at 2 by assumption. rewrite <- Hv at 2. constructor. assumption.
Qed.

(** ** [demangle_number] *)
Definition rebased_iff c : is_rebased c = true <-> (ch "A" <= c <= ch "P")%N.
Proof. unfold is_rebased, in_range. rewrite andb_true_iff, !N.leb_le. reflexivity. Qed.
Definition digit_iff c : is_digit c = true <-> (ch "0" <= c <= ch "9")%N.
Proof. unfold is_digit, in_range. rewrite andb_true_iff, !N.leb_le. reflexivity. Qed.

Lemma two64_pos : (two64 <> 0)%N.
Proof. discriminate. Qed.
Lemma step_lt n x : (x < 16)%N -> ((N.shiftl n 4) mod two64 + x < two64)%N.
Proof.
  intros Hx. rewrite N.shiftl_mul_pow2. change (2 ^ 4)%N with 16%N. change two64 with (1152921504606846976 * 16)%N.
  rewrite N.mul_mod_distr_r by discriminate. pose proof (N.mod_lt n 1152921504606846976 ltac:(discriminate)). nia.
Qed.
Lemma step_mod n x : (x < 16)%N -> ((N.shiftl (n mod two64) 4) mod two64 + x = (n * 16 + x) mod two64)%N.
Proof.
  intros Hx. assert (Hlt := step_lt (n mod two64) x Hx).
  rewrite <- (N.mod_small _ _ Hlt). rewrite N.shiftl_mul_pow2. change (2 ^ 4)%N with 16%N.
  rewrite N.add_mod_idemp_l by discriminate. rewrite N.add_mod by discriminate. rewrite N.mul_mod_idemp_l by discriminate.
  rewrite <- N.add_mod by discriminate. reflexivity.
Qed.

(** The loop on letters. *)
Lemma number_loop_letters l : forall fuel s a c rest, Forall (fun c => (ch "A" <= c <= ch "P")%N) l ->
  chars_ok s -> c :: tx s = l ++ ch "@" :: rest -> length l < fuel ->
  number_loop fuel c (a mod two64) s = Ok ((letters_value a l mod two64)%N, st_at rest s).
Proof.
  induction l as [|x l IH]; intros fuel s a c rest Hf Hs Ht Hl; (destruct fuel as [|fuel]; [cbn in Hl; lia|]); cbn [number_loop].
  - cbn in Ht. injection Ht as -> Ht. rewrite N.eqb_refl. unfold ret. rewrite <- Ht, st_at_id by assumption. reflexivity.
  - cbn in Ht. injection Ht as -> Ht. inversion Hf as [|? ? Hx Hf']; subst.
    destruct (N.eqb_spec x (ch "@")) as [->|Hne]; [exfalso; change (ch "A") with 65%N in Hx; change (ch "@") with 64%N in Hx; lia|].
    replace (is_rebased x) with true by (symmetry; apply rebased_iff; assumption).
    assert (Hx16 : (x - ch "A" < 16)%N) by (change (ch "P") with 80%N in Hx; change (ch "A") with 65%N in *; lia).
    cbv zeta. pose proof (step_lt (a mod two64) _ Hx16) as Hlt. apply N.ltb_lt in Hlt. rewrite Hlt.
    unfold bind. rewrite next_char_eq by assumption. rewrite Ht.
    rewrite step_mod by assumption. destruct l as [|y l].
    + cbn [app]. rewrite (IH fuel _ _ _ rest); [reflexivity|constructor|reflexivity|reflexivity|cbn in *; lia].
    + cbn [app]. rewrite (IH fuel _ _ _ rest); [reflexivity|assumption|reflexivity|reflexivity|cbn in *; lia].
Qed.

Lemma st_at_app s t : st_at t (st_at (tx s) s) = st_at t s.
Proof. reflexivity. Qed.

(** Reading a number text gives its value and leaves the rest. *)
Lemma demangle_number_eq s t v neg rest : chars_ok s -> signed_text t v neg -> tx s = t ++ rest ->
  demangle_number s = Ok ((v, neg), st_at rest s).
Proof.
  intros Hs (d & Hd & ->) Ht. unfold demangle_number, bind.
  assert (Hneg : eat_char (ch "?") s = Ok (neg, st_at (d ++ rest) s)).
  { rewrite eat_char_eq by assumption. rewrite Ht. destruct neg; cbn [L list_ascii_of_string map app].
    - change (L "?" ++ d) with (ch "?" :: d). cbn [app]. rewrite N.eqb_refl. reflexivity.
    - assert (Hnot : forall x r, d ++ rest = x :: r -> (x =? ch "?")%N = false).
      { intros x r Hx. destruct Hd as [d Hlt|l Hl].
        - assert (x = (ch "0" + d)%N) by (cbn [app] in Hx; congruence). subst x. apply N.eqb_neq. change (ch "0") with 48%N. change (ch "?") with 63%N. lia.
        - destruct l as [|y l]; cbn in Hx; injection Hx as <- _; [reflexivity|].
          inversion Hl; subst. apply N.eqb_neq. change (ch "A") with 65%N in *. change (ch "?") with 63%N. lia. }
      cbn [app] in Ht. assert (Hid : st_at (d ++ rest) s = s) by (rewrite <- Ht; apply st_at_id; assumption). rewrite Hid. destruct (d ++ rest) as [|x r] eqn:Hdr; [reflexivity|]. rewrite (Hnot _ _ eq_refl). reflexivity. }
  rewrite Hneg. rewrite next_char_eq by reflexivity. rewrite tx_st_at. destruct Hd as [x Hx|l Hl].
  - cbn [app]. replace (is_digit (ch "0" + x)) with true by (symmetry; apply digit_iff; change (ch "9") with 57%N; change (ch "0") with 48%N; lia).
    unfold ret. rewrite st_at_st_at. replace (ch "0" + x - ch "0" + 1)%N with (x + 1)%N by lia. reflexivity.
  - change (L "@") with [ch "@"]. rewrite <- app_assoc. cbn [app].
    destruct l as [|y l]; cbn [app].
    + change (is_digit (ch "@")) with false. cbn [text].
      change (text (st_at rest (st_at (ch "@" :: rest) s))) with (Ok (rest, st_at rest s)). cbv iota beta.
      change 0%N with (0 mod two64)%N at 1. rewrite (number_loop_letters [] _ _ _ _ rest); [reflexivity|constructor|reflexivity|reflexivity|cbn; lia].
    + inversion Hl as [|? ? Hy Hl']; subst. destruct (is_digit y) eqn:Hdig.
      { apply digit_iff in Hdig. change (ch "A") with 65%N in Hy. change (ch "9") with 57%N in Hdig. lia. }
      rewrite st_at_st_at. change (text (st_at (l ++ ch "@" :: rest) s)) with (Ok (l ++ ch "@" :: rest, st_at (l ++ ch "@" :: rest) s)). cbv iota beta.
      change 0%N with (0 mod two64)%N at 1. rewrite (number_loop_letters (y :: l) _ _ _ _ rest); [reflexivity|assumption|reflexivity|reflexivity|].
      rewrite app_length. cbn [length]. lia.
Qed.

(** Conversely, whatever was read was a number text. *)
Lemma number_loop_inv fuel : forall c n s v s', chars_ok s -> number_loop fuel c n s = Ok (v, s') ->
  exists l, Forall (fun c => (ch "A" <= c <= ch "P")%N) l /\ c :: tx s = l ++ ch "@" :: tx s' /\ s' = st_at (tx s') s.
Proof.
  induction fuel as [|fuel IH]; intros c n s v s' Hs; cbn [number_loop]; [discriminate|].
  destruct (N.eqb_spec c (ch "@")) as [->|Hne].
  - intros H. injection H as <- <-. exists []. repeat split; [constructor|]. symmetry. apply st_at_id, Hs.
  - destruct (is_rebased c) eqn:Hr; [|discriminate]. cbv zeta. destruct (_ <? _)%N; [|discriminate].
    unfold bind. rewrite next_char_eq by assumption. destruct (tx s) as [|y t] eqn:Ht; [discriminate|].
    intros H. apply IH in H; [|reflexivity]. destruct H as (l & Hl & Hx & Hs').
    exists (c :: l). rewrite tx_st_at in Hx. rewrite Hx. repeat split; auto.
    constructor; [apply rebased_iff; assumption|assumption].
Qed.
Lemma demangle_number_inv s v neg s' : chars_ok s -> demangle_number s = Ok ((v, neg), s') ->
  exists t, signed_text t v neg /\ tx s = t ++ tx s' /\ s' = st_at (tx s') s.
Proof.
  intros Hs H.
  assert (Hd : exists d v', num_text d v' /\ tx s = ((if neg then L "?" else []) ++ d) ++ tx s' /\ s' = st_at (tx s') s).
  { unfold demangle_number, bind in H. rewrite eat_char_eq in H by assumption.
    assert (Hgo : forall s1, chars_ok s1 -> (match next_char InvalidNumber s1 with
        | Ok (c, s2) => (if is_digit c then ret (c - ch "0" + 1, neg)%N else (fun s3 => match text s3 with
          | Ok (t0, s4) => match number_loop (S (length t0)) c 0%N s4 with Ok (n, s5) => ret (n, neg) s5 | Err e => Err e | Panic => Panic | Fuel => Fuel end
          | Err e => Err e | Panic => Panic | Fuel => Fuel end)) s2
        | Err e => Err e | Panic => Panic | Fuel => Fuel end) = Ok ((v, neg), s') ->
        exists d v', num_text d v' /\ tx s1 = d ++ tx s' /\ s' = st_at (tx s') s1).
    { intros s1 Hs1. rewrite next_char_eq by assumption. destruct (tx s1) as [|c t]; [discriminate|].
      destruct (is_digit c) eqn:Hdig.
      - intros H1. injection H1 as <- <-. apply digit_iff in Hdig. rewrite tx_st_at.
        exists [c], (c - ch "0" + 1)%N. split; [|auto]. replace c with (ch "0" + (c - ch "0"))%N at 1 by lia. constructor.
        change (ch "0") with 48%N in *. change (ch "9") with 57%N in *. lia.
      - unfold text. cbn [ms_str s_ms st_at set_ms ms_new]. destruct (number_loop _ _ _ _) as [[n s5]| | |] eqn:Hn; try discriminate.
        intros H1. injection H1 as <- <-. apply number_loop_inv in Hn; [|reflexivity]. destruct Hn as (l & Hl & Hx & Hs').
        rewrite tx_st_at in Hx. exists (l ++ L "@"), (letters_value 0 l mod 2 ^ 64)%N. split; [constructor; assumption|].
        rewrite Hx. rewrite <- app_assoc. split; [reflexivity|]. exact Hs'. }
    assert (Hcase : exists b s1, eat_char (ch "?") s = Ok (b, s1) /\ chars_ok s1 /\ tx s = (if b then L "?" else []) ++ tx s1 /\ st_at (tx s') s1 = st_at (tx s') s).
    { rewrite eat_char_eq by assumption. destruct (tx s) as [|x r] eqn:Ht.
      - exists false, s. rewrite Ht. auto.
      - destruct (N.eqb_spec x (ch "?")) as [->|].
        + exists true, (st_at r s). repeat split.
        + exists false, s. rewrite Ht. auto. }
    destruct Hcase as (b & s1 & He & Hs1 & Htx & Hat). rewrite eat_char_eq in He by assumption. rewrite He in H.
    assert (Hb : b = neg).
    { destruct (next_char InvalidNumber s1) as [[c s2]| | |]; try discriminate. destruct (is_digit c); [injection H as _ -> _; reflexivity|].
      destruct (text s2) as [[t0 s4]| | |]; try discriminate. destruct (number_loop _ _ _ _) as [[n s5]| | |]; try discriminate. injection H as _ -> _. reflexivity. }
    subst b. destruct (Hgo s1 Hs1 H) as (d & v' & Hd & Hx & Hs'). exists d, v'. split; [assumption|]. rewrite <- Hat. split; [|assumption].
    rewrite Htx, Hx, app_assoc. reflexivity. }
  destruct Hd as (d & v' & Hd & Ht & Hs').
  assert (Hst : signed_text ((if neg then L "?" else []) ++ d) v' neg) by (exists d; auto).
  pose proof (demangle_number_eq s _ _ _ _ Hs Hst Ht) as Heq. rewrite Heq in H. injection H as -> _.
  eexists. split; [exact Hst|]. auto.
Qed.
