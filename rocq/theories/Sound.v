(** Reading backwards: what the parser accepts.  Partial correctness, and the lexical functions.
    Proof infrastructure for [Accepted]. *)
From Verif Require Import Parser Utf8 Show Den Emit Grammar Lex Step Number Pend ReadAt Round RoundNames.

(** ** If [m] succeeds then [Q] *)
Definition pw {A} (m : M A) (Q : A -> st -> Prop) (s : st) : Prop :=
  match m s with Ok (a, s') => Q a s' | _ => True end.

Lemma pw_bind {A C} (m : M A) (f : A -> M C) Q s : pw m (fun a s' => pw (f a) Q s') s -> pw (bind m f) Q s.
Proof. unfold pw, bind. destruct (m s) as [[a s']| | |]; auto. Qed.
Lemma pw_mono {A} (m : M A) (Q R : A -> st -> Prop) s : pw m Q s -> (forall a s', Q a s' -> R a s') -> pw m R s.
Proof. unfold pw. destruct (m s) as [[a s']| | |]; auto. Qed.
Lemma pw_ret {A} (a : A) (Q : A -> st -> Prop) s : Q a s -> pw (ret a) Q s.
Proof. auto. Qed.
Lemma pw_fail {A} e (Q : A -> st -> Prop) s : pw (fail e) Q s.
Proof. exact I. Qed.
Lemma pw_panic {A} (Q : A -> st -> Prop) s : pw panic Q s.
Proof. exact I. Qed.
Lemma pw_any {A} (m : M A) (Q : A -> st -> Prop) s : (forall a s', Q a s') -> pw m Q s.
Proof. unfold pw. destruct (m s) as [[a s']| | |]; auto. Qed.
Lemma pw_step {A C} (m : M A) (f : A -> M C) Q s a s' : m s = Ok (a, s') -> pw (f a) Q s' -> pw (bind m f) Q s.
Proof. unfold pw. intros H. rewrite (bind_eq _ _ _ _ _ H). auto. Qed.
Lemma pw_stop {A C} (m : M A) (f : A -> M C) Q s : (forall a s', m s <> Ok (a, s')) -> pw (bind m f) Q s.
Proof. unfold pw, bind. destruct (m s) as [[a s']| | |]; auto. intros H. exfalso. eapply H. reflexivity. Qed.
Lemma pw_ok_or {A} (o : option A) e (Q : A -> st -> Prop) s : (forall a, o = Some a -> Q a s) -> pw (ok_or o e) Q s.
Proof. destruct o; cbn; auto. Qed.
Lemma pw_if {A} (b : bool) (m k : M A) Q s : (b = true -> pw m Q s) -> (b = false -> pw k Q s) -> pw (if b then m else k) Q s.
Proof. destruct b; auto. Qed.
Lemma pw_wp {A} ok (m : M A) (Q : A -> st -> Prop) s : wp ok m Q s -> pw m Q s.
Proof. unfold pw, wp. destruct (m s) as [[a s']| | |]; auto. Qed.
Lemma pw_and {A} (m : M A) (Q R : A -> st -> Prop) s : pw m Q s -> pw m R s -> pw m (fun a s' => Q a s' /\ R a s') s.
Proof. unfold pw. destruct (m s) as [[a s']| | |]; auto. Qed.
Lemma pw_conv {A} (m : M A) (Q : A -> st -> Prop) s : (forall a s', m s = Ok (a, s') -> Q a s') -> pw m Q s.
Proof. unfold pw. destruct (m s) as [[a s']| | |]; auto. Qed.

Lemma lookup_in {A} c (l : list (N * A)) v : lookup c l = Some v -> In (c, v) l.
Proof.
  induction l as [|[k x] l IH]; cbn; [discriminate|]. destruct (N.eqb_spec c k) as [->|]; [intros [= ->]; auto|]. auto.
Qed.

(** Cases of membership in a concrete list. *)
Ltac cases H := cbn in H; repeat (destruct H as [H|H]; [|]); try contradiction.

Section Lexing.
  Variables (sg : store) (f n : list handle).
  Notation at' t := (at_ t sg f n).

  Lemma pw_text (Q : str -> st -> Prop) T : Q T (at' T) -> pw text Q (at' T).
  Proof. auto. Qed.
  Lemma pw_next e (Q : N -> st -> Prop) T : (forall c r, T = c :: r -> Q c (at' r)) -> pw (next_char e) Q (at' T).
  Proof.
    intros H. destruct T as [|c r]; unfold pw; [rewrite next_at_nil; exact I|]. rewrite next_at. apply H. reflexivity.
  Qed.
  Lemma pw_eat c (Q : bool -> st -> Prop) T : (forall r, T = c :: r -> Q true (at' r)) -> (starts c T = false -> Q false (at' T)) -> pw (eat_char c) Q (at' T).
  Proof.
    intros H1 H2. unfold pw. destruct (starts c T) eqn:Hs; [|rewrite eat_no by exact Hs; auto].
    destruct T as [|x r]; [discriminate|]. cbn in Hs. apply N.eqb_eq in Hs. subst x. rewrite eat_yes. auto.
  Qed.
  Lemma pw_eats p (Q : bool -> st -> Prop) T : (forall r, T = p ++ r -> Q true (at' r)) -> (strip_prefix p T = None -> Q false (at' T)) -> pw (eat_str p) Q (at' T).
  Proof.
    intros H1 H2. unfold pw. destruct (strip_prefix p T) as [r|] eqn:Hs; [|rewrite eats_no by exact Hs; auto].
    apply strip_prefix_spec in Hs. subst T. rewrite eats_yes. auto.
  Qed.
  Lemma pw_expect c e (Q : unit -> st -> Prop) T : (forall r, T = c :: r -> Q tt (at' r)) -> pw (expect_char c e) Q (at' T).
  Proof. intros H. unfold expect_char. apply pw_bind. apply pw_eat; [intros r Hr; apply pw_ret; auto|intros _; exact I]. Qed.
  Lemma pw_expects p e (Q : unit -> st -> Prop) T : (forall r, T = p ++ r -> Q tt (at' r)) -> pw (expect_str p e) Q (at' T).
  Proof. intros H. unfold expect_str. apply pw_bind. apply pw_eats; [intros r Hr; apply pw_ret; auto|intros _; exact I]. Qed.
  Lemma pw_eatif g (Q : option N -> st -> Prop) T : (forall c r, T = c :: r -> g c = true -> Q (Some c) (at' r)) ->
    (first_is g T = false -> Q None (at' T)) -> pw (eat_if g) Q (at' T).
  Proof.
    intros H1 H2. unfold pw. destruct (first_is g T) eqn:Hs; [|rewrite eatif_no by exact Hs; auto].
    destruct T as [|x r]; [discriminate|]. cbn in Hs. rewrite eatif_yes by exact Hs. auto.
  Qed.
  Lemma pw_first l (Q : option str -> st -> Prop) T : (forall p r, In p l -> T = p ++ r -> Q (Some p) (at' r)) ->
    ((forall p, In p l -> strip_prefix p T = None) -> Q None (at' T)) -> pw (eat_first l) Q (at' T).
  Proof.
    induction l as [|p l IH]; intros H1 H2; cbn [eat_first].
    - apply pw_ret. apply H2. intros p [].
    - apply pw_bind. apply pw_eats.
      + intros r Hr. apply pw_ret. apply H1; [left; reflexivity|exact Hr].
      + intros Hn. apply IH; [intros q r Hq; apply H1; right; exact Hq|]. intros Ha. apply H2. intros q [<-|Hq]; auto.
  Qed.
  Lemma pw_special l (Q : option sik -> st -> Prop) T : (forall p k r, In (p, k) l -> T = p ++ r -> Q (Some k) (at' r)) ->
    (Forall (fun p => strip_prefix p T = None) (map fst l) -> Q None (at' T)) -> pw (consume_special l) Q (at' T).
  Proof.
    induction l as [|[p k] l IH]; intros H1 H2; cbn [consume_special].
    - apply pw_ret. apply H2. constructor.
    - apply pw_bind. apply pw_eats.
      + intros r Hr. apply pw_ret. apply (H1 p); [left; reflexivity|exact Hr].
      + intros Hn. apply IH; [intros q j r Hq; apply H1; right; exact Hq|]. intros Ha. apply H2. constructor; auto.
  Qed.

  (** Numbers. *)
  Lemma pw_number (Q : N * bool -> st -> Prop) T : (forall t v neg r, signed_text t v neg -> T = t ++ r -> Q (v, neg) (at' r)) ->
    pw demangle_number Q (at' T).
  Proof.
    intros H. apply pw_conv. intros [v neg] s' Hd. apply demangle_number_inv in Hd; [|reflexivity]. destruct Hd as (t & Ht & Hx & ->).
    eapply H; [exact Ht|exact Hx].
  Qed.
  Lemma pw_unsigned (Q : N -> st -> Prop) T : (forall t v r, num_text t v -> T = t ++ r -> Q v (at' r)) -> pw demangle_unsigned Q (at' T).
  Proof.
    intros H. unfold demangle_unsigned. apply pw_bind. apply pw_number. intros t v [] r Ht Hx; [exact I|]. apply pw_ret.
    destruct Ht as (d & Hd & ->). eapply H; [exact Hd|exact Hx].
  Qed.
  Lemma pw_signed (Q : Z -> st -> Prop) T : (forall t z r, signed_number t z -> T = t ++ r -> Q z (at' r)) -> pw demangle_signed Q (at' T).
  Proof.
    intros H. unfold demangle_signed. apply pw_bind. apply pw_number. intros t v neg r Ht Hx. apply pw_if; [|intros _; exact I]. intros Hv.
    apply pw_ret. eapply H; [|exact Hx]. apply N.ltb_lt in Hv. exists v, neg. auto.
  Qed.
  Lemma pw_offsets k : forall (Q : list Z -> st -> Prop) T, (forall t zs r, length zs = k -> offsets t zs -> T = t ++ r -> Q zs (at' r)) ->
    pw (read_offsets k) Q (at' T).
  Proof.
    induction k as [|k IH]; intros Q T H; cbn [read_offsets].
    - apply pw_ret. apply (H [] []); [reflexivity|constructor|reflexivity].
    - apply pw_bind. apply pw_signed. intros t z r Hz ->. apply pw_bind. apply IH. intros t' zs r' Hl Ho ->. apply pw_ret.
      apply (H (t ++ t') (z :: zs)); [cbn; congruence|constructor; assumption|apply app_assoc].
  Qed.

  (** Codes. *)
  Lemma pw_quals (Q : N * bool -> st -> Prop) T : (forall m c v r, T = cv_code m c v :: r -> Q (cvq c v, m) (at' r)) -> pw demangle_qualifiers Q (at' T).
  Proof.
    intros H. unfold demangle_qualifiers. apply pw_bind. apply pw_next. intros x r ->. apply pw_ok_or. intros p Hp. apply lookup_in in Hp.
    assert (He : exists m c v, x = cv_code m c v /\ p = (cvq c v, m)).
    { cases Hp; injection Hp as <- <-;
        [exists true, false, false|exists true, true, false|exists true, false, true|exists true, true, true|
         exists false, false, false|exists false, true, false|exists false, false, true|exists false, true, true]; split; reflexivity. }
    destruct He as (m & c & v & -> & ->). apply H. reflexivity.
  Qed.
  Lemma pw_ext (Q : N -> st -> Prop) T : (forall p r u t, T = ext_code p r u ++ t -> Q (extq p r u) (at' t)) -> pw pointer_ext_qualifiers Q (at' T).
  Proof.
    intros H. unfold pointer_ext_qualifiers.
    assert (He : forall c (Q' : bool -> st -> Prop) T, (forall b r, T = opt b [c] ++ r -> Q' b (at' r)) -> pw (eat_char c) Q' (at' T)).
    { intros c Q' T' HQ. apply pw_eat; [intros r ->; apply HQ; reflexivity|intros _; apply HQ; reflexivity]. }
    apply pw_bind. apply He. intros p t1 ->. apply pw_bind. apply He. intros r t2 ->. apply pw_bind. apply He. intros u t3 ->. apply pw_ret.
    apply H. unfold ext_code. rewrite <- !app_assoc. reflexivity.
  Qed.
  Lemma pw_pcv (Q : N * affinity -> st -> Prop) T : (forall pt q a r, pointer_code pt q a -> T = pt ++ r -> Q (q, a) (at' r)) ->
    pw demangle_pointer_cv_qualifiers Q (at' T).
  Proof.
    intros H. unfold demangle_pointer_cv_qualifiers. apply pw_bind. apply pw_eats.
    - intros r ->. apply pw_ret. eapply H; [apply pk_rvalue|reflexivity].
    - intros _. apply pw_bind. apply pw_next. intros x r ->. apply pw_ok_or. intros p Hp. apply lookup_in in Hp.
      cases Hp; injection Hp as <- <-.
      + eapply H; [apply pk_reference|reflexivity].
      + eapply H; [apply (pk_pointer false false)|reflexivity].
      + eapply H; [apply (pk_pointer true false)|reflexivity].
      + eapply H; [apply (pk_pointer false true)|reflexivity].
      + eapply H; [apply (pk_pointer true true)|reflexivity].
  Qed.
  Lemma pw_ref (Q : option ref_qual -> st -> Prop) T : (forall rt rq r, ref_code rt rq -> T = rt ++ r -> Q rq (at' r)) -> pw demangle_function_ref_qualifier Q (at' T).
  Proof.
    intros H. unfold demangle_function_ref_qualifier. apply pw_bind. apply pw_eat.
    - intros r ->. apply pw_ret. eapply H; [apply rf_lvalue|reflexivity].
    - intros _. apply pw_bind. apply pw_eat.
      + intros r ->. apply pw_ret. eapply H; [apply rf_rvalue|reflexivity].
      + intros _. apply pw_ret. eapply H; [apply rf_none|reflexivity].
  Qed.
  Lemma pw_cc (Q : option call_conv -> st -> Prop) T : (forall l cc r, cc_code l cc -> T = l :: r -> Q cc (at' r)) -> pw demangle_calling_convention Q (at' T).
  Proof.
    intros H. unfold demangle_calling_convention. apply pw_bind. apply pw_next. intros x r ->. apply pw_ret. eapply H; [|reflexivity].
    destruct (lookup x cc_table) as [c|] eqn:Hc.
    - apply cc_known. apply lookup_in in Hc. cases Hc; injection Hc as <- <-; cbn; tauto.
    - apply cc_other. intros c Hin. destruct c; cbn in Hin; repeat (destruct Hin as [<-|Hin]; [discriminate Hc|]); exact Hin.
  Qed.
  Lemma pw_storage (Q : storage_class -> st -> Prop) T : (forall l a sc r, storage_code l a -> T = l :: r -> Q sc (at' r)) ->
    pw demangle_variable_storage_class Q (at' T).
  Proof.
    intros H. unfold demangle_variable_storage_class. apply pw_bind. apply pw_next. intros x r ->. apply pw_ok_or. intros sc Hp. apply lookup_in in Hp.
    cases Hp; injection Hp as <- <-; (eapply H; [constructor|reflexivity]).
  Qed.
  Lemma pw_throw (Q : bool -> st -> Prop) T : (forall ne r, T = throw_code ne ++ r -> Q ne (at' r)) -> pw demangle_throw_specification Q (at' T).
  Proof.
    intros H. unfold demangle_throw_specification. apply pw_bind. apply pw_eats.
    - intros r ->. apply pw_ret. apply H. reflexivity.
    - intros _. apply pw_bind. apply pw_eat; [|intros _; exact I]. intros r ->. apply pw_ret. apply H. reflexivity.
  Qed.
  Lemma pw_prim (Q : prim_kind -> st -> Prop) T : (forall k r, T = prim_code k ++ r -> Q k (at' r)) -> pw demangle_primitive_kind Q (at' T).
  Proof.
    intros H. unfold demangle_primitive_kind. apply pw_bind. apply pw_eats.
    - intros r ->. apply pw_ret. apply H. reflexivity.
    - intros _. apply pw_bind. apply pw_next. intros x r ->. apply pw_if.
      + intros Hx. apply N.eqb_eq in Hx. subst x. apply pw_bind. apply pw_next. intros y r' ->. apply pw_ok_or. intros k Hp. apply lookup_in in Hp.
        cases Hp; injection Hp as <- <-; apply H; reflexivity.
      + intros _. apply pw_ok_or. intros k Hp. apply lookup_in in Hp.
        cases Hp; injection Hp as <- <-; apply H; reflexivity.
  Qed.
End Lexing.
