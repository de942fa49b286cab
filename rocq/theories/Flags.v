(** C19-C22: what a flag word can and cannot influence. *)
From Verif Require Import Api Utf8 Lex Rel RelOut.

(** ** Two environments with the same view give the same results *)
Lemma w_str_same E E' t b b' : e_out E = e_out E' -> b_bytes b = b_bytes b' ->
  snd (w_str E t b) = snd (w_str E' t b') /\ (snd (w_str E t b) = Ok tt -> b_bytes (fst (w_str E t b)) = b_bytes (fst (w_str E' t b'))).
Proof.
  intros He Hb. unfold w_str. destruct t as [|c t]; [auto|]. rewrite Hb, He. destruct (_ <? _)%N; cbn; [auto|split; [reflexivity|discriminate]].
Qed.

Lemma into_same_view E E' s b b' : same_view E E' -> e_nodes E = e_nodes E' -> e_out E = e_out E' ->
  fst (demangle_into_with E s b) = fst (demangle_into_with E' s b') /\
  (fst (demangle_into_with E s b) = Ok tt ->
   b_bytes (snd (demangle_into_with E s b)) = b_bytes (snd (demangle_into_with E' s b'))).
Proof.
  intros V Hn Ho.
  assert (Hstr : forall t, relw (fun _ => False) False (w_str E t) (w_str E' t)).
  { intros t c c' Hc. right. apply w_str_same; assumption. }
  assert (Hout : forall sg k h, relw (fun _ => False) False (output E sg k h) (output E' sg k h)).
  { intros. apply relw_output; assumption. }
  destruct (rel_knot (fun _ => False) False E E') with (fuel := S (length s)) as [Hp _].
  { intros n. apply rel_eq. intros t. unfold intern. rewrite Hn. reflexivity. }
  { exact Hstr. }
  { exact Hout. }
  specialize (Hp (init_st s)). unfold demangle_into_with, parse, parse_with, clear.
  destruct (k_parse (knot_of E (S (length s))) (init_st s)) as [[h t]|e| |],
           (k_parse (knot_of E' (S (length s))) (init_st s)) as [[h' t']|e'| |];
    destruct Hp as [[]|Hp]; try contradiction; cbn [fst snd]; try (split; [congruence|discriminate]).
  destruct Hp as [-> ->]. specialize (Hout (s_store t') KSym h' (mkBuf [] (b_cap b)) (mkBuf [] (b_cap b')) eq_refl).
  destruct (output E (s_store t') KSym h' (mkBuf [] (b_cap b))) as [ob r], (output E' (s_store t') KSym h' (mkBuf [] (b_cap b'))) as [ob' r'].
  destruct Hout as [Hbad|[Heq Hbe]]; cbn [fst snd] in *; [destruct r; destruct Hbad|]. subst r'.
  destruct r as [[]|e| |]; try (split; [reflexivity|discriminate]).
  specialize (Hbe eq_refl). unfold beq in Hbe. rewrite Hbe.
  destruct (from_utf8 (b_bytes ob')); cbn; split; auto; discriminate.
Qed.

Lemma demangle_same_view E E' s : same_view E E' -> e_nodes E = e_nodes E' -> e_out E = e_out E' ->
  demangle_with E s = demangle_with E' s.
Proof.
  intros V Hn Ho. destruct (into_same_view E E' s (mkBuf [] 0) (mkBuf [] 0) V Hn Ho) as [H1 H2]. unfold demangle_with.
  destruct (demangle_into_with E s (mkBuf [] 0)) as [r b], (demangle_into_with E' s (mkBuf [] 0)) as [r' b'].
  cbn [fst snd] in *. subst r'. destruct r as [[]|e| |]; try reflexivity. rewrite H2; reflexivity.
Qed.

(** ** Specification vocabulary *)
(** The same machine with another flag word. *)
Definition with_flags (E : env) (f : N) : env :=
  {| e_flags := f; e_alnum := e_alnum E; e_grow := e_grow E; e_nodes := e_nodes E; e_out := e_out E |}.
(** [f] and [g] agree on every bit outside the mask [m]. *)
Definition agree_outside (m f g : N) : Prop := forall i, N.testbit m i = false -> N.testbit f i = N.testbit g i.
(** The two calls cannot be told apart: same string or same error; same buffer contents. *)
Definition same_results (E E' : env) (s : str) : Prop :=
  demangle E s = demangle E' s /\
  forall buf, fst (demangle_into E s buf) = fst (demangle_into E' s buf) /\
    (fst (demangle_into E s buf) = Ok tt -> b_bytes (snd (demangle_into E s buf)) = b_bytes (snd (demangle_into E' s buf))).
(** The union of the ten defined flags, and the two implication masks. *)
Definition defined_flags : N := 0x3FF.
Definition name_only_implies : N :=
  N.lor NO_ACCESS_SPECIFIER (N.lor NO_MEMBER_TYPE (N.lor NO_TAG_SPECIFIER (N.lor NO_VARIABLE_TYPE NO_THISTYPE))).
Definition no_ms_keywords_implies : N := N.lor NO_LEADING_UNDERSCORES NO_CALLING_CONVENTION.

Lemma contains_bit f n : contains f (2 ^ n) = N.testbit f n.
Proof.
  unfold contains. destruct (N.testbit f n) eqn:Hb.
  - apply N.eqb_eq. apply N.bits_inj. intros i. rewrite N.land_spec, N.pow2_bits_eqb.
    destruct (N.eqb_spec n i) as [<-|]; [rewrite Hb; reflexivity|]. apply andb_false_r.
  - apply N.eqb_neq. intros H. assert (Ht : N.testbit (N.land f (2 ^ n)) n = true) by (rewrite H; apply N.pow2_bits_true).
    rewrite N.land_spec, Hb in Ht. discriminate.
Qed.
Lemma agree_bit m f g n : agree_outside m f g -> N.testbit m n = false -> contains f (2 ^ n) = contains g (2 ^ n).
Proof. intros H Hm. rewrite !contains_bit. apply H. assumption. Qed.

Lemma same_view_results E E' s : same_view (code_limits E) (code_limits E') -> same_results E E' s.
Proof.
  intros V. split; [apply demangle_same_view; auto|]. intros b. apply into_same_view; auto.
Qed.
(** ** C08 *)
(** C08.  How a machine grows its buffers does not show: two machines with the same flags and the
    same notion of letters and digits give the same results. *)
Theorem allocation_is_irrelevant : forall (E E' : env) (s : str),
  e_flags E = e_flags E' -> (forall c, e_alnum E c = e_alnum E' c) -> same_results E E' s.
Proof.
  intros E E' s Hf Ha. apply same_view_results. constructor; intros; try apply Ha;
    unfold no_calling_convention, no_tag_specifier, no_access_specifier, no_member_type, no_return_type,
      no_variable_type, no_this_type, no_leading_underscores, no_ms_keywords, name_only;
    cbn [e_flags code_limits]; rewrite Hf; reflexivity.
Qed.
Print Assumptions allocation_is_irrelevant.
(** A machine that grows a buffer by exactly what is needed, and one that doubles it: same text,
    different capacity. *)
Definition exact_growth : env := {| e_flags := 0; e_alnum := fun _ => true; e_grow := whole (fun _ n => n); e_nodes := max_nodes; e_out := out_limit |}.
Example allocation_example :
  forall s x, s = L "?f@@YAXXZ" -> x = utf8 (L "void __cdecl f(void)") ->
  demangle_into exact_growth s (mkBuf [1%N] 1) = (Ok tt, mkBuf x 20) /\
  demangle_into (env_of 0) s (mkBuf [1%N] 1) = (Ok tt, mkBuf x 32).
Proof. intros s x -> ->. split; vm_compute; reflexivity. Qed.
Ltac bits f g m H :=
  repeat match goal with |- contains f ?k = contains g ?k => let n := eval vm_compute in (N.log2 k) in
    change k with (2 ^ n)%N; apply (agree_bit m); [exact H|reflexivity] end.

(** ** C19 *)
(** C19.  The result depends only on the ten defined flag bits: two flag words that agree on
    the bits of [0x3FF] are interchangeable. *)
Theorem unknown_flag_bits_ignored : forall (E : env) (f g : N) (s : str),
  N.land f defined_flags = N.land g defined_flags ->
  same_results (with_flags E f) (with_flags E g) s.
Proof.
  intros E f g s H.
  assert (Hb : forall i, N.testbit defined_flags i = true -> N.testbit f i = N.testbit g i).
  { intros i Hi. assert (Ht : N.testbit (N.land f defined_flags) i = N.testbit (N.land g defined_flags) i) by (rewrite H; reflexivity).
    rewrite !N.land_spec, Hi, !andb_true_r in Ht. exact Ht. }
  apply same_view_results. constructor; intros;
    try match goal with |- _ (code_limits (with_flags E f)) = _ =>
      unfold no_calling_convention, no_tag_specifier, no_access_specifier, no_member_type, no_return_type,
        no_variable_type, no_this_type, no_leading_underscores, no_ms_keywords, name_only;
      cbn [e_flags code_limits with_flags] end; [reflexivity|..];
    match goal with |- contains f ?k = contains g ?k => let n := eval vm_compute in (N.log2 k) in
      change k with (2 ^ n)%N; rewrite !contains_bit; apply Hb; reflexivity end.
Qed.
Print Assumptions unknown_flag_bits_ignored.
Example unknown_bits_example : N.land 0xFFFFFC01 defined_flags = N.land 1 defined_flags /\
  demangle (env_of 0xFFFFFC01) (L "?f@@YAXXZ") = Ok (L "void f(void)") /\
  demangle (env_of 0) (L "?f@@YAXXZ") = Ok (L "void __cdecl f(void)").
Proof. repeat split; vm_compute; reflexivity. Qed.
(** That no defined bit is ignored is part of C22 ([flags_change_acceptance]). *)

(** ** C20 *)
(** C20.  Under [NAME_ONLY] the flags [NO_ACCESS_SPECIFIER], [NO_MEMBER_TYPE],
    [NO_TAG_SPECIFIER], [NO_VARIABLE_TYPE] and [NO_THISTYPE] change nothing. *)
Theorem name_only_subsumes : forall (E : env) (f g : N) (s : str),
  contains f NAME_ONLY = true -> agree_outside name_only_implies f g ->
  same_results (with_flags E f) (with_flags E g) s.
Proof.
  intros E f g s Hn H. apply same_view_results.
  assert (Hno : name_only (code_limits (with_flags E f)) = true) by exact Hn.
  constructor; intros; try congruence; [reflexivity|..];
    unfold no_calling_convention, no_return_type, no_leading_underscores, no_ms_keywords, name_only;
    cbn [e_flags code_limits with_flags]; bits f g name_only_implies H.
Qed.
Print Assumptions name_only_subsumes.
(** The hypotheses are met by words that differ, on a symbol where the five flags matter
    without [NAME_ONLY]. *)
Example name_only_example :
  contains 0x200 NAME_ONLY = true /\ agree_outside name_only_implies 0x200 0x26E /\ 
  demangle (env_of 0x200) (L "?f@A@@QBEXXZ") = demangle (env_of 0x26E) (L "?f@A@@QBEXXZ") /\
  demangle (env_of 0) (L "?f@A@@QBEXXZ") <> demangle (env_of 0x6E) (L "?f@A@@QBEXXZ").
Proof.
  repeat split; try (vm_compute; (reflexivity || discriminate)).
  intros i. assert (Hm : (0x26E = N.lor 0x200 name_only_implies)%N) by reflexivity. rewrite Hm, N.lor_spec. intros ->.
  rewrite orb_false_r. reflexivity.
Qed.
(** The list is exact: each of the four other flags still matters under [NAME_ONLY]. *)
Theorem name_only_subsumes_no_more : forall g,
  In g [NO_CALLING_CONVENTION; NO_RETURN_TYPE; NO_LEADING_UNDERSCORES; NO_MS_KEYWORDS] ->
  exists s t u, demangle (env_of NAME_ONLY) s = Ok t /\ demangle (env_of (N.lor NAME_ONLY g)) s = Ok u /\ t <> u.
Proof.
  intros g Hg. exists (L "?f@?$A@P6AXXZ@@SAXXZ"). cbn in Hg.
  repeat destruct Hg as [<-|Hg]; try contradiction;
    (eexists _, _; split; [vm_compute; reflexivity|split; [vm_compute; reflexivity|discriminate]]).
Qed.
Print Assumptions name_only_subsumes_no_more.

(** ** C21 *)
(** C21.  Under [NO_MS_KEYWORDS] the flags [NO_LEADING_UNDERSCORES] and
    [NO_CALLING_CONVENTION] change nothing. *)
Theorem no_ms_keywords_subsumes : forall (E : env) (f g : N) (s : str),
  contains f NO_MS_KEYWORDS = true -> agree_outside no_ms_keywords_implies f g ->
  same_results (with_flags E f) (with_flags E g) s.
Proof.
  intros E f g s Hn H. apply same_view_results.
  assert (Hno : no_ms_keywords (code_limits (with_flags E f)) = true) by exact Hn.
  constructor; intros; try congruence; [reflexivity|..];
    unfold no_return_type, no_ms_keywords, name_only, no_access_specifier, no_member_type, no_tag_specifier, no_variable_type, no_this_type;
    cbn [e_flags code_limits with_flags]; bits f g no_ms_keywords_implies H.
Qed.
Print Assumptions no_ms_keywords_subsumes.
Example no_ms_keywords_example :
  contains 0x100 NO_MS_KEYWORDS = true /\ agree_outside no_ms_keywords_implies 0x100 0x181 /\ 
  demangle (env_of 0x100) (L "?f@@YAXPIAH@Z") = Ok (L "void f(int *)") /\
  demangle (env_of 0x181) (L "?f@@YAXPIAH@Z") = Ok (L "void f(int *)") /\
  demangle (env_of 0) (L "?f@@YAXPIAH@Z") = Ok (L "void __cdecl f(int *__restrict)").
Proof.
  repeat split; try (vm_compute; reflexivity).
  intros i. assert (Hm : (0x181 = N.lor 0x100 no_ms_keywords_implies)%N) by reflexivity. rewrite Hm, N.lor_spec. intros ->.
  rewrite orb_false_r. reflexivity.
Qed.

(** ** C22 *)
(** C22.  Flags are not purely presentational.  For each of the ten flags there is a symbol that
    demangles without it and is rejected with it, because two back-reference entries that were
    distinct are rendered alike and merge. *)
Definition backref_symbol (a b : str) : str := L "?x@" ++ a ++ b ++ L "N@3@3HA".
Theorem flags_change_acceptance : forall i, (i < 10)%N ->
  exists s t, demangle (env_of 0) s = Ok t /\ demangle (env_of (2 ^ i)) s = Err InvalidBackRef.
Proof.
  intros i Hi.
  assert (Hs : (i = 0 \/ i = 1 \/ i = 2 \/ i = 3 \/ i = 4 \/ i = 5 \/ i = 6 \/ i = 7 \/ i = 8 \/ i = 9)%N) by lia.
  repeat destruct Hs as [->|Hs].
  - exists (backref_symbol (L "?$A@P6AXXZ@") (L "?$A@P6GXXZ@")). eexists. split; vm_compute; reflexivity.
  - exists (backref_symbol (L "?$A@VB@@@") (L "?$A@UB@@@")). eexists. split; vm_compute; reflexivity.
  - exists (backref_symbol (L "?$A@$1?f@C@@SAXXZ@") (L "?$A@$1?f@C@@CAXXZ@")). eexists. split; vm_compute; reflexivity.
  - exists (backref_symbol (L "?$A@$1?f@C@@SAXXZ@") (L "?$A@$1?f@C@@QAAXXZ@")). eexists. split; vm_compute; reflexivity.
  - exists (backref_symbol (L "?$A@$1?f@@YAXXZ@") (L "?$A@$1?f@@YAHXZ@")). eexists. split; vm_compute; reflexivity.
  - exists (backref_symbol (L "?$A@$1?v@@3HA@") (L "?$A@$1?v@@3DA@")). eexists. split; vm_compute; reflexivity.
  - exists (backref_symbol (L "?$A@$1?f@C@@QAEXXZ@") (L "?$A@$1?f@C@@QBEXXZ@")). eexists. split; vm_compute; reflexivity.
  - exists (backref_symbol (L "?$A@P6AXXZ@") (L "A<void (cdecl *)(void)>@")). eexists. split; vm_compute; reflexivity.
  - exists (backref_symbol (L "?$A@P6AXXZ@") (L "?$A@P6GXXZ@")). eexists. split; vm_compute; reflexivity.
  - subst i. exists (backref_symbol (L "?$A@VB@@@") (L "?$A@UB@@@")). eexists. split; vm_compute; reflexivity.
Qed.
Print Assumptions flags_change_acceptance.
(** And a symbol where hiding the tag keyword makes the same back-reference denote another
    class: [A<struct B>] without the flag, [N] with it. *)
Theorem flags_change_meaning :
  demangle (env_of 0) (L "?x@?$A@VB@@@?$A@UB@@@N@2@3HA") = Ok (L "int A<struct B>::N::A<struct B>::A<class B>::x") /\
  demangle (env_of NO_TAG_SPECIFIER) (L "?x@?$A@VB@@@?$A@UB@@@N@2@3HA") = Ok (L "int N::N::A<B>::A<B>::x").
Proof. split; vm_compute; reflexivity. Qed.
Print Assumptions flags_change_meaning.
