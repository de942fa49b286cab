(** Weakest preconditions for the parser monad, and the lexical functions: they never panic,
    only consume text, and leave the node store and back-reference tables alone.
    Proof infrastructure. *)
From Verif Require Import Parser Utf8.

Definition tx (s : st) : str := ms_str (s_ms s).
Definition chars_ok (s : st) : Prop := ms_chars (s_ms s) = length (tx s).

(** Moving the text. *)
Definition st_at (t : str) (s : st) : st := set_ms (ms_new t) s.

Lemma st_at_id s : chars_ok s -> st_at (tx s) s = s.
Proof. destruct s as [[t n] a b c]. unfold chars_ok, st_at, tx, ms_new, set_ms. cbn. intros ->. reflexivity. Qed.
Lemma st_at_st_at t u s : st_at t (st_at u s) = st_at t s.
Proof. reflexivity. Qed.
Lemma tx_st_at t s : tx (st_at t s) = t.
Proof. reflexivity. Qed.
Lemma chars_ok_st_at t s : chars_ok (st_at t s).
Proof. reflexivity. Qed.

(** Errors other than those singled out by a predicate. *)
Section Wp.
  Variable okerr : error -> Prop.

  Definition wp {A} (m : M A) (Q : A -> st -> Prop) (s : st) : Prop :=
    match m s with
    | Ok (a, s') => Q a s'
    | Err e => okerr e
    | Panic | Fuel => False
    end.

  Lemma wp_bind {A B} (m : M A) (f : A -> M B) (Q : B -> st -> Prop) s :
    wp m (fun a s' => wp (f a) Q s') s -> wp (bind m f) Q s.
  Proof. unfold wp, bind. destruct (m s) as [[a s']| | |]; auto. Qed.
  Lemma wp_mono {A} (m : M A) (Q R : A -> st -> Prop) s :
    wp m Q s -> (forall a s', Q a s' -> R a s') -> wp m R s.
  Proof. unfold wp. destruct (m s) as [[a s']| | |]; auto. Qed.
  Lemma wp_ret {A} (a : A) (Q : A -> st -> Prop) s : Q a s -> wp (ret a) Q s.
  Proof. auto. Qed.
  Lemma wp_fail {A} e (Q : A -> st -> Prop) s : okerr e -> wp (fail e) Q s.
  Proof. auto. Qed.
  Lemma wp_ok_or {A} (o : option A) e (Q : A -> st -> Prop) s :
    okerr e -> (forall a, o = Some a -> Q a s) -> wp (ok_or o e) Q s.
  Proof. destruct o; cbn; auto. Qed.
  Lemma wp_get (Q : st -> st -> Prop) s : Q s s -> wp get Q s.
  Proof. auto. Qed.
  Lemma wp_text (Q : str -> st -> Prop) s : Q (tx s) s -> wp text Q s.
  Proof. auto. Qed.
  Lemma wp_if {A} (b : bool) (m k : M A) (Q : A -> st -> Prop) s :
    (b = true -> wp m Q s) -> (b = false -> wp k Q s) -> wp (if b then m else k) Q s.
  Proof. destruct b; auto. Qed.
  Lemma wp_eq {A} (m : M A) (Q : A -> st -> Prop) s a s' : m s = Ok (a, s') -> Q a s' -> wp m Q s.
  Proof. unfold wp. intros ->. auto. Qed.
End Wp.

(** [adv n s s']: at least [n] characters were consumed, nothing else happened. *)
Definition adv (n : nat) (s s' : st) : Prop :=
  exists p t, tx s = p ++ t /\ s' = st_at t s /\ n <= length p.

Lemma adv_refl s : chars_ok s -> adv 0 s s.
Proof. intros H. exists [], (tx s). repeat split; [|cbn; lia]. symmetry; apply st_at_id; assumption. Qed.
Lemma adv_trans n m a b c : adv n a b -> adv m b c -> adv (n + m) a c.
Proof.
  intros (p & t & H1 & -> & Hn) (q & u & H2 & -> & Hm). rewrite tx_st_at in H2. subst t.
  exists (p ++ q), u. rewrite <- app_assoc, app_length. repeat split; auto. lia.
Qed.
Lemma adv_le n m a b : m <= n -> adv n a b -> adv m a b.
Proof. intros H (p & t & H1 & H2 & H3). exists p, t. repeat split; auto. lia. Qed.
Lemma adv_chars n a b : adv n a b -> chars_ok b.
Proof. intros (p & t & _ & -> & _). apply chars_ok_st_at. Qed.
Lemma adv_len n a b : adv n a b -> length (tx b) + n <= length (tx a).
Proof. intros (p & t & H & -> & Hn). rewrite H, app_length, tx_st_at. lia. Qed.

(** Exact behaviour of the consuming primitives. *)
Lemma ms_drop_ok s r n : n <= ms_chars (s_ms s) -> ms_drop (s_ms s) r n = Ok (mkMS r (ms_chars (s_ms s) - n)).
Proof. intros H. unfold ms_drop. apply Nat.leb_le in H. rewrite H. reflexivity. Qed.

Lemma next_char_eq e s : chars_ok s ->
  next_char e s = match tx s with c :: r => Ok (c, st_at r s) | [] => Err e end.
Proof.
  destruct s as [[t n] a b c]. unfold chars_ok, tx. cbn. intros ->.
  unfold next_char, bind, lift, try_consume. cbn. destruct t as [|x r]; reflexivity || (cbn; rewrite ?Nat.sub_0_r; reflexivity).
Qed.
Lemma eat_if_eq f s : chars_ok s ->
  eat_if f s = match tx s with
               | c :: r => if f c then Ok (Some c, st_at r s) else Ok (None, s)
               | [] => Ok (None, s)
               end.
Proof.
  destruct s as [[t n] a b c]. unfold chars_ok, tx. cbn. intros ->.
  unfold eat_if, lift, try_consume_char_if. cbn. destruct t as [|x r]; [reflexivity|].
  destruct (f x); cbn; rewrite ?Nat.sub_0_r; reflexivity.
Qed.
Lemma eat_char_eq c s : chars_ok s ->
  eat_char c s = match tx s with
                 | x :: r => if (x =? c)%N then Ok (true, st_at r s) else Ok (false, s)
                 | [] => Ok (false, s)
                 end.
Proof.
  intros H. pose proof (eat_if_eq (fun x => (x =? c)%N) s H) as He.
  unfold eat_char, bind. change (try_consume_char c) with (try_consume_char_if (fun x => (x =? c)%N)). unfold eat_if in He. rewrite He.
  destruct (tx s) as [|x r]; [reflexivity|]. destruct (_ =? _)%N; reflexivity.
Qed.

Lemma strip_prefix_spec p s r : strip_prefix p s = Some r <-> s = p ++ r.
Proof.
  revert s. induction p as [|x p IH]; intros s; cbn.
  - split; congruence.
  - destruct s as [|y s]; [split; discriminate|]. destruct (N.eqb_spec x y) as [->|Hne].
    + rewrite IH. split; intros H; [rewrite H; reflexivity|injection H; auto].
    + split; [discriminate|]. intros H. injection H. congruence.
Qed.
Lemma eat_str_eq p s : chars_ok s ->
  eat_str p s = match strip_prefix p (tx s) with
                | Some r => Ok (true, st_at r s)
                | None => Ok (false, s)
                end.
Proof.
  destruct s as [[t n] a b c]. unfold chars_ok, tx. cbn. intros ->.
  unfold eat_str, bind, lift, try_consume_str. cbn [s_ms ms_str].
  destruct (strip_prefix p t) as [r|] eqn:Hp; [|reflexivity].
  apply strip_prefix_spec in Hp. subst t. unfold ms_drop. cbn [ms_chars].
  rewrite app_length. replace (length p <=? length p + length r) with true by (symmetry; apply Nat.leb_le; lia).
  cbn. unfold st_at, ms_new. replace (length p + length r - length p) with (length r) by lia. reflexivity.
Qed.

Lemma str_bytes_cons c s : str_bytes (c :: s) = utf8_len c + str_bytes s.
Proof. reflexivity. Qed.

Lemma split_bytes_spec n s a b : split_bytes n s = Some (a, b) <-> s = a ++ b /\ str_bytes a = n.
Proof.
  revert n a b. induction s as [|c s IH]; intros n a b.
  - destruct n; cbn.
    + split; [intros H; injection H as <- <-; auto|]. intros [H1 H2].
      symmetry in H1. apply app_eq_nil in H1. destruct H1; subst. reflexivity.
    + split; [discriminate|]. intros [H1 H2]. symmetry in H1. apply app_eq_nil in H1. destruct H1; subst. discriminate.
  - destruct n as [|n].
    + cbn. split; [intros H; injection H as <- <-; auto|]. intros [H1 H2].
      destruct a as [|x a]; [cbn in H1; subst; reflexivity|]. exfalso.
      rewrite str_bytes_cons in H2. pose proof (utf8_len_pos x). lia.
    + cbn [split_bytes]. destruct (utf8_len c <=? S n) eqn:Hle.
      * apply Nat.leb_le in Hle. destruct (split_bytes (S n - utf8_len c) s) as [[a' b']|] eqn:Hr.
        -- apply IH in Hr. destruct Hr as [-> Hn]. split.
           ++ intros H; injection H as <- <-. split; [reflexivity|]. rewrite str_bytes_cons. lia.
           ++ intros [H1 H2]. destruct a as [|x a]; [discriminate H2|]. cbn in H1. injection H1 as <- H1.
              rewrite str_bytes_cons in H2.
              assert (H3 : split_bytes (S n - utf8_len c) (a' ++ b') = Some (a, b)).
              { apply IH. split; [assumption|]. lia. }
              assert (H4 : split_bytes (S n - utf8_len c) (a' ++ b') = Some (a', b')).
              { apply IH. split; [reflexivity|assumption]. }
              rewrite H3 in H4; injection H4 as -> ->; reflexivity.
        -- split; [discriminate|]. intros [H1 H2]. destruct a as [|x a]; [discriminate H2|]. cbn in H1. injection H1 as <- H1.
           rewrite str_bytes_cons in H2.
           assert (H3 : split_bytes (S n - utf8_len c) s = Some (a, b)).
           { apply IH. split; [assumption|lia]. }
           congruence.
      * split; [discriminate|]. intros [H1 H2]. destruct a as [|x a]; [discriminate H2|]. cbn in H1. injection H1 as <- H1.
        rewrite str_bytes_cons in H2. apply Nat.leb_gt in Hle. lia.
Qed.

Lemma find_char_spec x s i : find_char x s = Some i ->
  exists a b, s = a ++ x :: b /\ str_bytes a = i /\ ~ In x a.
Proof.
  revert i. induction s as [|c s IH]; intros i; cbn; [discriminate|].
  destruct (N.eqb_spec c x) as [->|Hne].
  - intros H; injection H as <-. exists [], s. repeat split. intros [].
  - destruct (find_char x s) as [j|]; [|discriminate]. intros H; injection H as <-.
    destruct (IH j eq_refl) as (a & b & -> & Hj & Hn). exists (c :: a), b. split; [reflexivity|].
    split; [rewrite str_bytes_cons; lia|]. cbn. intuition congruence.
Qed.
Lemma find_char_app x a b : ~ In x a -> find_char x (a ++ x :: b) = Some (str_bytes a).
Proof.
  induction a as [|c a IH]; intros Hn; cbn.
  - rewrite N.eqb_refl. reflexivity.
  - destruct (N.eqb_spec c x) as [->|Hne]; [exfalso; apply Hn; left; reflexivity|].
    rewrite IH; [reflexivity|]. intros H; apply Hn; right; assumption.
Qed.
Lemma find_char_none x s : ~ In x s -> find_char x s = None.
Proof.
  induction s as [|c s IH]; intros Hn; cbn; [reflexivity|].
  destruct (N.eqb_spec c x) as [->|Hne]; [exfalso; apply Hn; left; reflexivity|].
  rewrite IH; [reflexivity|]. intros H; apply Hn; right; assumption.
Qed.
Lemma split_bytes_app a b : split_bytes (str_bytes a) (a ++ b) = Some (a, b).
Proof. apply split_bytes_spec. auto. Qed.
Lemma str_bytes_app a b : str_bytes (a ++ b) = str_bytes a + str_bytes b.
Proof. unfold str_bytes. rewrite map_app, list_sum_app. reflexivity. Qed.

Lemma consume_bytes_eq n s : chars_ok s ->
  lift (try_consume_n_bytes n) s = match split_bytes n (tx s) with
                                   | Some (a, b) => Ok (Some a, st_at b s)
                                   | None => Ok (None, s)
                                   end.
Proof.
  destruct s as [[t m] x y z]. unfold chars_ok, tx. cbn. intros ->.
  unfold lift, try_consume_n_bytes. cbn [s_ms ms_str].
  destruct (split_bytes n t) as [[a b]|] eqn:Hp; [|reflexivity].
  apply split_bytes_spec in Hp. destruct Hp as [-> Hp]. unfold ms_drop. cbn [ms_chars].
  rewrite app_length. replace (length a <=? length a + length b) with true by (symmetry; apply Nat.leb_le; lia).
  cbn. unfold st_at, ms_new. replace (length a + length b - length a) with (length b) by lia. reflexivity.
Qed.
Lemma consume_2_eq s : chars_ok s ->
  lift try_consume_2_chars s = match tx s with
                               | c1 :: c2 :: r => Ok (Some (c1, c2), st_at r s)
                               | _ => Ok (None, s)
                               end.
Proof.
  destruct s as [[t m] x y z]. unfold chars_ok, tx. cbn. intros ->.
  unfold lift, try_consume_2_chars. cbn. destruct t as [|c1 [|c2 r]]; try reflexivity.
  cbn. rewrite ?Nat.sub_0_r. reflexivity.
Qed.

(** The errors that are declared but not reported (shown in Errors.v). *)
Definition unused (e : error) : bool :=
  match e with
  | InvalidFunctionType | InvalidPointerType | InvalidTagUniqueName | InvalidVariableStorageClass
  | InvalidPointerCVQualifiers | InvalidMemberPointerType | InvalidLocallyScopedNamePiece => true
  | _ => false
  end.

Section Lexical.
  Variable okerr : error -> Prop.
  Hypothesis Hok : forall e, e <> Utf8Error -> e <> Io UnexpectedEof -> unused e = false -> okerr e.
  Notation wp := (wp okerr).
  Ltac oke := apply Hok; first [discriminate|reflexivity].

  (** A lexical function consumes at least [n a] characters when it returns [a]. *)
  Definition lex {A} (n : A -> nat) (m : M A) : Prop :=
    forall s, chars_ok s -> wp m (fun a s' => adv (n a) s s') s.

  Lemma lex_ret {A} (n : A -> nat) (a : A) : n a = 0 -> lex n (ret a).
  Proof. intros Hn s Hs. apply wp_ret. rewrite Hn. apply adv_refl, Hs. Qed.
  Lemma lex_fail {A} e (n : A -> nat) : okerr e -> lex n (fail e).
  Proof. intros He s Hs. exact He. Qed.
  Lemma lex_bind {A B} (n : A -> nat) (m : M A) (k : B -> nat) (f : A -> M B) :
    lex n m -> (forall a, lex (fun b => k b - n a) (f a)) -> lex k (bind m f).
  Proof.
    intros Hm Hf s Hs. apply wp_bind. eapply wp_mono; [apply Hm, Hs|].
    intros a s' Ha. cbv beta in Ha. eapply wp_mono; [apply (Hf a); eapply adv_chars; eassumption|].
    intros b s'' Hb. cbv beta in Hb. eapply adv_le; [|eapply adv_trans; eassumption]. lia.
  Qed.
  Lemma lex_le {A} (n k : A -> nat) m : (forall a, k a <= n a) -> lex n m -> lex k m.
  Proof. intros H Hm s Hs. eapply wp_mono; [apply Hm, Hs|]. intros a s' Ha. eapply adv_le; [apply H|exact Ha]. Qed.
  Lemma lex_if {A} (n : A -> nat) (b : bool) m k : lex n m -> lex n k -> lex n (if b then m else k).
  Proof. destruct b; auto. Qed.
  Lemma lex_ok_or {A} (o : option A) e : okerr e -> lex (fun _ => 0) (ok_or o e).
  Proof. destruct o; cbn; intros; [apply lex_ret; reflexivity|apply lex_fail; assumption]. Qed.
  Lemma lex_text : lex (fun _ => 0) text.
  Proof. intros s Hs. apply wp_text, adv_refl, Hs. Qed.

  Lemma adv_cons s c r : tx s = c :: r -> adv 1 s (st_at r s).
  Proof. intros H. exists [c], r. repeat split; [exact H|cbn; lia]. Qed.
  Lemma adv_app n s p r : tx s = p ++ r -> n <= length p -> adv n s (st_at r s).
  Proof. intros H Hn. exists p, r. auto. Qed.

  Lemma lex_next e : okerr e -> lex (fun _ => 1) (next_char e).
  Proof.
    intros He s Hs. unfold wp. rewrite next_char_eq by assumption.
    destruct (tx s) as [|c r] eqn:Ht; [exact He|]. eapply adv_cons; eassumption.
  Qed.
  Lemma lex_eat_if f : lex (fun o => match o with Some _ => 1 | None => 0 end) (eat_if f).
  Proof.
    intros s Hs. unfold wp. rewrite eat_if_eq by assumption.
    destruct (tx s) as [|c r] eqn:Ht; [apply adv_refl, Hs|].
    destruct (f c); [eapply adv_cons; eassumption|apply adv_refl, Hs].
  Qed.
  Lemma lex_eat_char c : lex (fun b : bool => if b then 1 else 0) (eat_char c).
  Proof.
    intros s Hs. unfold wp. rewrite eat_char_eq by assumption.
    destruct (tx s) as [|x r] eqn:Ht; [apply adv_refl, Hs|].
    destruct (_ =? _)%N; [eapply adv_cons; eassumption|apply adv_refl, Hs].
  Qed.
  Lemma lex_eat_str p : lex (fun b : bool => if b then length p else 0) (eat_str p).
  Proof.
    intros s Hs. unfold wp. rewrite eat_str_eq by assumption.
    destruct (strip_prefix p (tx s)) as [r|] eqn:Hp; [|apply adv_refl, Hs].
    apply strip_prefix_spec in Hp. eapply adv_app; eauto.
  Qed.
  Lemma lex_expect_char c e : okerr e -> lex (fun _ => 1) (expect_char c e).
  Proof.
    intros He. eapply lex_bind; [apply lex_eat_char|]. intros [|]; [|apply lex_fail; exact He].
    apply lex_ret. cbn; lia.
  Qed.
  Lemma lex_expect_str p e : okerr e -> lex (fun _ => length p) (expect_str p e).
  Proof.
    intros He. eapply lex_bind; [apply lex_eat_str|]. intros [|]; [|apply lex_fail; exact He].
    apply lex_ret. cbn; lia.
  Qed.
  Lemma lex_bytes n : lex (fun o => match o with Some a => length a | None => 0 end) (lift (try_consume_n_bytes n)).
  Proof.
    intros s Hs. unfold wp. rewrite consume_bytes_eq by assumption.
    destruct (split_bytes n (tx s)) as [[a b]|] eqn:Hp; [|apply adv_refl, Hs].
    apply split_bytes_spec in Hp. eapply adv_app; [apply Hp|lia].
  Qed.
  Lemma lex_2 : lex (fun o => match o with Some _ => 2 | None => 0 end) (lift try_consume_2_chars).
  Proof.
    intros s Hs. unfold wp. rewrite consume_2_eq by assumption.
    destruct (tx s) as [|c1 [|c2 r]] eqn:Ht; try apply adv_refl, Hs.
    exists [c1; c2], r. auto.
  Qed.
  Lemma lex_eat_first l : Forall (fun p => 1 <= length p) l ->
    lex (fun o => match o with Some _ => 1 | None => 0 end) (eat_first l).
  Proof.
    induction 1 as [|p l Hp Hl IH]; cbn; [apply lex_ret; reflexivity|].
    eapply lex_bind; [apply lex_eat_str|]. intros [|].
    - apply lex_ret. destruct (length p); [lia|reflexivity].
    - eapply lex_le; [|exact IH]. intros [|]; lia.
  Qed.
  Lemma lex_consume_special t : Forall (fun p => 1 <= length (fst p)) t ->
    lex (fun o => match o with Some _ => 1 | None => 0 end) (consume_special t).
  Proof.
    induction 1 as [|[p k] l Hp Hl IH]; cbn in *; [apply lex_ret; reflexivity|].
    eapply lex_bind; [apply lex_eat_str|]. intros [|].
    - apply lex_ret. destruct (length p); [lia|reflexivity].
    - eapply lex_le; [|exact IH]. intros [|]; lia.
  Qed.

  Ltac lx0 := first [ apply lex_next; oke | apply lex_eat_char | apply lex_eat_str | apply lex_eat_if
    | apply lex_expect_char; oke | apply lex_expect_str; oke | apply lex_ok_or; oke | apply lex_text | apply lex_bytes | apply lex_2 ].
  Ltac lx := first [ apply lex_fail; oke
    | apply lex_ret; cbn; intros; repeat match goal with |- context [match ?x with _ => _ end] => destruct x end; cbn; lia
    | eapply lex_le; [| lx0 ]; cbn; intros; repeat match goal with |- context [match ?x with _ => _ end] => destruct x end; cbn; lia
    | eapply lex_bind; [lx0|]; intros; cbv beta ].

  Lemma lex_pointer_ext : lex (fun _ => 0) pointer_ext_qualifiers.
  Proof. unfold pointer_ext_qualifiers. repeat lx. Qed.

  Lemma number_step n d : (d <= 15 -> N.shiftl n 4 mod two64 + d < two64)%N.
  Proof.
    intros Hd. rewrite N.shiftl_mul_pow2. change (2 ^ 4)%N with 16%N.
    change two64 with (1152921504606846976 * 16)%N. rewrite N.mul_mod_distr_r by lia.
    pose proof (N.mod_lt n 1152921504606846976 ltac:(lia)). lia.
  Qed.
  Lemma rebased_le c : is_rebased c = true -> (c - ch "A" <= 15)%N.
  Proof.
    unfold is_rebased, in_range. change (ch "A") with 65%N. change (ch "P") with 80%N.
    intros H. apply andb_true_iff in H. destruct H as [H1 H2]. apply N.leb_le in H1, H2. lia.
  Qed.

  Lemma number_loop_ok fuel : forall c n s, chars_ok s -> length (tx s) < fuel ->
    wp (number_loop fuel c n) (fun _ s' => adv 0 s s') s.
  Proof.
    induction fuel as [|fuel IH]; intros c n s Hs Hl; [lia|]. cbn [number_loop].
    destruct (_ =? _)%N; [apply wp_ret, adv_refl, Hs|].
    destruct (is_rebased c) eqn:Hr; [|apply wp_fail; oke].
    assert (Hlt : (N.shiftl n 4 mod two64 + (c - ch "A") < two64)%N) by (apply number_step, rebased_le, Hr).
    apply N.ltb_lt in Hlt. cbv zeta. rewrite Hlt.
    apply wp_bind. eapply wp_mono; [apply lex_next; [oke|exact Hs]|].
    intros a s' Ha. cbv beta in Ha. pose proof (adv_len _ _ _ Ha). eapply wp_mono.
    - apply IH; [eapply adv_chars; eassumption|lia].
    - intros b s'' Hb. cbv beta in Hb. eapply adv_le; [|eapply adv_trans; eassumption]. lia.
  Qed.
  Lemma lex_number_loop c n : lex (fun _ => 0) (s <- text ;; number_loop (S (length s)) c n).
  Proof. intros s Hs. apply wp_bind, wp_text. apply number_loop_ok; [assumption|lia]. Qed.
  Lemma lex_number : lex (fun _ => 1) demangle_number.
  Proof.
    unfold demangle_number. lx. eapply lex_bind; [apply lex_next; oke|]. intros c. cbv beta.
    apply lex_if; [apply lex_ret; cbn; intros; destruct a; lia|].
    intros s Hs. apply wp_bind, wp_text, wp_bind. eapply wp_mono; [apply number_loop_ok; [assumption|lia]|].
    intros n s' Hn. cbv beta in Hn. apply wp_ret. eapply adv_le; [|exact Hn]. destruct a; lia.
  Qed.
  Lemma lex_unsigned : lex (fun _ => 1) demangle_unsigned.
  Proof. unfold demangle_unsigned. eapply lex_bind; [apply lex_number|]. intros [n neg]. destruct neg; lx. Qed.
  Lemma lex_signed : lex (fun _ => 1) demangle_signed.
  Proof. unfold demangle_signed. eapply lex_bind; [apply lex_number|]. intros [n neg]. apply lex_if; lx. Qed.
  Lemma lex_to_u32 n e : okerr e -> lex (fun _ => 0) (to_u32 n e).
  Proof. intros He. unfold to_u32. apply lex_if; [lx|apply lex_fail, He]. Qed.
  Lemma lex_to_i32 n e : okerr e -> lex (fun _ => 0) (to_i32 n e).
  Proof. intros He. unfold to_i32. apply lex_if; [lx|apply lex_fail, He]. Qed.
  Lemma lex_qualifiers : lex (fun _ => 1) demangle_qualifiers.
  Proof. unfold demangle_qualifiers. repeat lx. Qed.
  (** A lexical function called where its first characters were looked at. *)
  Definition lex_at {A} (n : A -> nat) (m : M A) (s : st) : Prop := chars_ok s -> wp m (fun a s' => adv (n a) s s') s.
  Lemma at_pointer_cv s : is_pointer_type (tx s) = true -> lex_at (fun _ => 1) demangle_pointer_cv_qualifiers s.
  Proof.
    intros Hp Hs. unfold demangle_pointer_cv_qualifiers.
    apply wp_bind. unfold Lex.wp. rewrite eat_str_eq by assumption.
    unfold is_pointer_type, starts_with in Hp. destruct (strip_prefix (L "$$Q") (tx s)) as [r|] eqn:Hr.
    - apply strip_prefix_spec in Hr. cbn. eapply adv_app; [exact Hr|cbn; lia].
    - cbn [orb] in Hp. cbv beta iota. unfold bind. rewrite next_char_eq by assumption.
      destruct (tx s) as [|c t] eqn:Ht; [discriminate Hp|]. cbn [first_is] in Hp.
      assert (Hl : exists v, lookup c pointer_cv_table = Some v).
      { unfold one_of in Hp. cbn in Hp. repeat (apply orb_prop in Hp; destruct Hp as [Hp|Hp]; [apply N.eqb_eq in Hp; subst c; cbn; eauto|]). discriminate Hp. }
      destruct Hl as [v ->]. cbn. eapply adv_cons; eassumption.
  Qed.
  Lemma lex_ref_qual : lex (fun _ => 0) demangle_function_ref_qualifier.
  Proof. unfold demangle_function_ref_qualifier. lx. destruct a; [lx|]. lx. destruct a; lx. Qed.
  Lemma lex_cc : lex (fun _ => 1) demangle_calling_convention.
  Proof. unfold demangle_calling_convention. repeat lx. Qed.
  Lemma at_storage s c : first_char (tx s) = Some c -> one_of (L "01234") c = true -> lex_at (fun _ => 1) demangle_variable_storage_class s.
  Proof.
    intros Hc Hp Hs. unfold demangle_variable_storage_class, Lex.wp, bind. rewrite next_char_eq by assumption.
    destruct (tx s) as [|x t] eqn:Ht; [discriminate Hc|]. injection Hc as ->.
    assert (Hl : exists v, lookup c storage_table = Some v).
    { unfold one_of in Hp. cbn in Hp. repeat (apply orb_prop in Hp; destruct Hp as [Hp|Hp]; [apply N.eqb_eq in Hp; subst c; cbn; eauto|]). discriminate Hp. }
    destruct Hl as [v ->]. cbn. eapply adv_cons; eassumption.
  Qed.
  Lemma lex_throw : lex (fun _ => 1) demangle_throw_specification.
  Proof. unfold demangle_throw_specification. lx. destruct a; [lx|]. lx. destruct a; lx. Qed.
  Lemma lex_function_class : lex (fun _ => 1) demangle_function_class.
  Proof. unfold demangle_function_class. lx. apply lex_if; [|lx]. repeat lx. Qed.
  Lemma lex_prim_kind : lex (fun _ => 1) demangle_primitive_kind.
  Proof. unfold demangle_primitive_kind. lx. destruct a; [lx|]. lx. apply lex_if; repeat lx. Qed.

  Lemma is_digit_range d : is_digit d = true -> (48 <= d <= 57)%N.
  Proof. unfold is_digit, in_range. change (ch "0") with 48%N. change (ch "9") with 57%N.
    intros H. apply andb_true_iff in H. destruct H as [H1 H2]. apply N.leb_le in H1, H2. lia. Qed.
  Lemma is_upper_range d : is_upper d = true -> (65 <= d <= 90)%N.
  Proof. unfold is_upper, in_range. change (ch "A") with 65%N. change (ch "Z") with 90%N.
    intros H. apply andb_true_iff in H. destruct H as [H1 H2]. apply N.leb_le in H1, H2. lia. Qed.

  Lemma lex_char_literal : lex (fun _ => 1) demangle_char_literal.
  Proof.
    unfold demangle_char_literal. lx. apply lex_if; [|apply lex_if; lx].
    lx. apply lex_if.
    { lx. eapply lex_bind; [apply lex_ok_or; oke|]. intros [x y]. cbv beta.
      repeat lx. }
    destruct (is_digit a0) eqn:Hd.
    { apply is_digit_range in Hd. change (ch "0") with 48%N.
      destruct (nth_error digit_escapes (N.to_nat (a0 - 48))) eqn:Hn; [lx|].
      exfalso. apply nth_error_None in Hn. cbn in Hn. lia. }
    apply lex_if; [lx|]. apply lex_if; lx.
  Qed.
  Lemma lex_wchar_literal : lex (fun _ => 2) demangle_wchar_literal.
  Proof.
    unfold demangle_wchar_literal. eapply lex_bind; [apply lex_char_literal|]. intros.
    eapply lex_bind; [apply lex_char_literal|]. intros. lx.
  Qed.
  Lemma lex_translate c g : lex (fun _ => 0) (translate_intrinsic c g).
  Proof.
    unfold translate_intrinsic. destruct (is_digit c || is_upper c) eqn:Hc; [|lx].
    set (i := if is_digit c then _ else _).
    assert (Hi : N.to_nat i < 36).
    { unfold i. change (ch "0") with 48%N. change (ch "A") with 65%N.
      destruct (is_digit c) eqn:Hd; [apply is_digit_range in Hd; lia|].
      cbn in Hc. apply is_upper_range in Hc. lia. }
    cbv zeta. destruct (nth_error (group_table g) (N.to_nat i)) eqn:Hn; [lx|].
    exfalso. apply nth_error_None in Hn. destruct g; cbn in Hn; lia.
  Qed.
  Lemma lex_read_offsets n : lex (fun _ => 0) (read_offsets n).
  Proof.
    induction n as [|n IH]; cbn; [lx|]. eapply lex_bind; [apply lex_signed|]. intros.
    eapply lex_bind; [exact IH|]. intros. lx.
  Qed.
  Lemma lex_this_adjust fc : lex (fun _ => 0) (this_adjust fc).
  Proof.
    unfold this_adjust. apply lex_if; [eapply lex_bind; [apply lex_signed|]; intros; lx|].
    apply lex_if; [|lx]. eapply (lex_bind (fun _ => 0)).
    { apply lex_if; [|lx]. eapply lex_bind; [apply lex_signed|]; intros.
      eapply lex_bind; [apply lex_signed|]; intros. lx. }
    intros [x y]. eapply lex_bind; [apply lex_signed|]; intros.
    eapply lex_bind; [apply lex_signed|]; intros. lx.
  Qed.
  Lemma narrow_loop_ok fuel : forall acc s, chars_ok s -> length (tx s) < fuel ->
    wp (narrow_loop fuel acc) (fun _ s' => adv 0 s s') s.
  Proof.
    induction fuel as [|fuel IH]; intros acc s Hs Hl; [lia|]. cbn [narrow_loop].
    apply wp_bind. eapply wp_mono; [apply lex_eat_char, Hs|]. intros [|] s1 H1; cbv beta iota in H1.
    { apply wp_ret. eapply adv_le; [|exact H1]. lia. }
    apply wp_bind, wp_text. apply wp_if; intros _; [apply wp_fail; oke|].
    apply wp_bind. eapply wp_mono; [apply lex_char_literal; eapply adv_chars; eassumption|].
    intros c s2 H2. cbv beta in H2. apply wp_if; intros _; [apply wp_fail; oke|].
    pose proof (adv_len _ _ _ H1). pose proof (adv_len _ _ _ H2).
    eapply wp_mono; [apply IH; [eapply adv_chars; eassumption|lia]|].
    intros l s3 H3. cbv beta in H3. eapply adv_le; [|eapply adv_trans; [eapply adv_trans; eassumption|eassumption]]. lia.
  Qed.
  Lemma lex_decode bytes i sz : lex (fun _ => 0) (ok_or (decode_multi_byte_char bytes i sz) InvalidStringLiteral).
  Proof. apply lex_ok_or. oke. Qed.

End Lexical.
