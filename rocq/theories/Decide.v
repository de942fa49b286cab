(** C44: what besides the text decides acceptance.  For every input, templates or not, and every
    two settings (flags, Unicode tables, allocation policy), the two calls both succeed or both
    fail with the same error, unless one of them failed on a name reference or a limit. *)
From Verif Require Import Parser Api Utf8 Wf ParseOk Safety Short Suppress Verdict AnyErr.

(** ** Specification vocabulary *)

(** The three errors that depend on the settings: a name reference to an entry that is not there,
    the node budget, the output limit. *)
Definition depends_on_settings (e : error) : Prop := e = InvalidBackRef \/ e = MaliciousInput \/ e = Io OutOfMemory.
Definition cut_short {A} (r : res A) : Prop := exists e, r = Err e /\ depends_on_settings e.

Lemma bad_cut E s : rust_str s -> bad (parse E s) -> exists e, parse E s = Err e /\ depends_on_settings e.
Proof.
  intros Hs. pose proof (parse_with_ok E (S (length s)) s Hs (Nat.lt_succ_diag_r _)) as P. unfold parse. unfold depends_on_settings.
  destruct (parse_with E (S (length s)) s) as [[h t]|e| |]; try contradiction. intros Hb. exists e. split; [reflexivity|].
  destruct P as (H1 & _). destruct e; try contradiction; auto. match goal with k : iokind |- _ => destruct k end; [contradiction|auto].
Qed.
Lemma parse_err E s e : parse E s = Err e -> demangle_with E s = Err e.
Proof. intros Hp. unfold demangle_with, demangle_into_with. rewrite Hp. reflexivity. Qed.
Lemma parse_print E s h t : rust_str s -> (0 < e_out E)%N -> parse E s = Ok (h, t) ->
  demangle_with E s = Err (Io OutOfMemory) \/ exists x, demangle_with E s = Ok x.
Proof.
  intros Hs H0 Hp. pose proof (demangle_facts E s Hs H0) as Hf. unfold demangle_with, demangle_into_with in *. rewrite Hp in *.
  pose proof (ow_output E (s_store t) KSym h (clear (mkBuf [] 0))) as Ho. destruct (output E (s_store t) KSym h (clear (mkBuf [] 0))) as [b [[]|e| |]]; try contradiction.
  - destruct (from_utf8 (b_bytes b)) as [x|] eqn:Hx.
    + rewrite ?Hx in *. right. exists x. reflexivity.
    + destruct Hf as [(Hf & _)|Hf]; [congruence|discriminate].
  - left. rewrite Ho. reflexivity.
Qed.
Lemma decide E E' s : rust_str s -> (0 < e_out E)%N -> (0 < e_out E')%N ->
  cut_short (demangle_with E s) \/ cut_short (demangle_with E' s) \/ same_verdict (demangle_with E s) (demangle_with E' s).
Proof.
  intros Hs H0 H0'. destruct (sim_knot E E' (S (length s))) as [H _].
  assert (Hc : forall F, bad (parse F s) -> cut_short (demangle_with F s)).
  { intros F Hb. destruct (bad_cut F s Hs Hb) as (e & H1 & H2). exists e. split; [apply parse_err; assumption|assumption]. }
  assert (HQ : Q (init_st s) (init_st s)) by (constructor; try reflexivity; constructor).
  destruct (H _ _ HQ) as [G|[G|[(e & G1 & G2)|(h & h' & t & t' & G1 & G2 & _)]]].
  - left. apply Hc. exact G.
  - right. left. apply Hc. exact G.
  - right. right. right. exists e. split; apply parse_err; assumption.
  - destruct (parse_print E s h t Hs H0 G1) as [P1|[x P1]]; [left; exists (Io OutOfMemory); split; [assumption|unfold depends_on_settings; auto]|].
    destruct (parse_print E' s h' t' Hs H0' G2) as [P2|[x' P2]]; [right; left; exists (Io OutOfMemory); split; [assumption|unfold depends_on_settings; auto]|].
    right. right. left. exists x, x'. auto.
Qed.

(** ** C44 *)

(** Any two settings agree on every input that neither of them rejects for one of the three
    reasons above; templates are included. *)
Theorem only_references_and_limits_decide : forall (E E' : env) (s : str), rust_str s ->
  ~ cut_short (demangle E s) -> ~ cut_short (demangle E' s) -> same_verdict (demangle E s) (demangle E' s).
Proof.
  intros E E' s Hs H1 H2. destruct (decide (code_limits E) (code_limits E') s Hs eq_refl eq_refl) as [H|[H|H]]; [contradiction|contradiction|exact H].
Qed.
(** Likewise for any two node budgets and output limits. *)
Theorem limits_decide_nothing_else : forall (E E' : env) (s : str), rust_str s -> (0 < e_out E)%N -> (0 < e_out E')%N ->
  ~ cut_short (demangle_with E s) -> ~ cut_short (demangle_with E' s) -> same_verdict (demangle_with E s) (demangle_with E' s).
Proof. intros E E' s Hs H0 H0' H1 H2. destruct (decide E E' s Hs H0 H0') as [H|[H|H]]; [contradiction|contradiction|exact H]. Qed.

(** A malformed text is malformed under every setting: no setting accepts it. *)
Theorem malformed_under_every_setting : forall (E : env) (s : str) (e : error), rust_str s ->
  demangle E s = Err e -> ~ depends_on_settings e ->
  forall E' : env, demangle E' s = Err e \/ cut_short (demangle E' s).
Proof.
  intros E s e Hs He Hd E'. destruct (decide (code_limits E) (code_limits E') s Hs eq_refl eq_refl) as [H|[H|H]].
  - exfalso. destruct H as (e' & H1 & H2). unfold demangle in He. rewrite He in H1. injection H1 as <-. exact (Hd H2).
  - right. exact H.
  - left. unfold demangle in *. destruct H as [(t & t' & H1 & _)|(e' & H1 & H2)]; congruence.
Qed.
(** A text of at most 1638 characters that one setting accepts is accepted by every other, except
    for a missing name reference or too long an output. *)
Theorem accepted_under_every_setting : forall (E : env) (s t : str), rust_str s -> length s <= 1638 -> demangle E s = Ok t ->
  forall E' : env, (exists t', demangle E' s = Ok t') \/ demangle E' s = Err InvalidBackRef \/ demangle E' s = Err (Io OutOfMemory).
Proof.
  intros E s t Hs Hl Ht E'. destruct (decide (code_limits E) (code_limits E') s Hs eq_refl eq_refl) as [H|[H|H]].
  - exfalso. destruct H as (e' & H1 & _). unfold demangle in Ht. congruence.
  - destruct H as (e & H1 & [-> | [-> | ->]]); auto. exfalso. exact (short_never_malicious E' s Hl H1).
  - destruct H as [(x & x' & _ & H2)|(e & H1 & _)]; [left; exists x'; exact H2|]. unfold demangle in Ht. congruence.
Qed.

(** ** The hypotheses are met, and each exception is real *)

(** Two texts with template instantiations: one is malformed behind them, the other is accepted. *)
Definition malformed_text : str := L "?f@@YAXV?$A@UX@@@@V?$A@VX@@@@@".
Definition accepted_text : str := L "?f@@YAXV?$A@UX@@@@V?$A@VX@@@@@Z".
Example decide_hyps :
  rust_str malformed_text /\ demangle (env_of 0) malformed_text = Err InvalidThrowSpecification /\ ~ depends_on_settings InvalidThrowSpecification /\
  demangle (env_of NO_TAG_SPECIFIER) malformed_text = Err InvalidThrowSpecification /\
  ~ cut_short (demangle (env_of 0) malformed_text) /\ ~ cut_short (demangle (env_of NO_TAG_SPECIFIER) malformed_text) /\
  rust_str accepted_text /\ length accepted_text <= 1638 /\
  demangle (env_of 0) accepted_text = Ok (L "void __cdecl f(class A<struct X>, class A<class X>)") /\
  demangle (env_of NO_TAG_SPECIFIER) accepted_text = Ok (L "void __cdecl f(A<X>, A<X>)").
Proof.
  assert (R1 : demangle (env_of 0) malformed_text = Err InvalidThrowSpecification) by (vm_compute; reflexivity).
  assert (R2 : demangle (env_of NO_TAG_SPECIFIER) malformed_text = Err InvalidThrowSpecification) by (vm_compute; reflexivity).
  assert (Hd : ~ depends_on_settings InvalidThrowSpecification) by (intros [H|[H|H]]; discriminate H).
  split; [repeat constructor|]. split; [exact R1|]. split; [exact Hd|]. split; [exact R2|]. rewrite R1, R2.
  split; [intros (e & H & H'); injection H as <-; exact (Hd H')|]. split; [intros (e & H & H'); injection H as <-; exact (Hd H')|].
  split; [repeat constructor|]. split; [apply Nat.leb_le; vm_compute; reflexivity|]. split; vm_compute; reflexivity.
Qed.
(** The same text with a third parameter that refers to the second name: accepted without flags,
    a missing reference when tag keywords are hidden. *)
Example reference_exception :
  (exists t, demangle (env_of 0) (L "?f@@YAXV?$A@UX@@@@V?$A@VX@@@@V2@@Z") = Ok t) /\
  demangle (env_of NO_TAG_SPECIFIER) (L "?f@@YAXV?$A@UX@@@@V?$A@VX@@@@V2@@Z") = Err InvalidBackRef.
Proof. split; [eexists|]; vm_compute; reflexivity. Qed.
(** The limits: a name that fits a small output limit under one flag word only, and a node budget
    that suffices for one of the two flag words only. *)
Definition limited (f nodes out : N) : env := {| e_flags := f; e_alnum := fun _ => true; e_grow := whole (fun _ _ => 0%N); e_nodes := nodes; e_out := out |}.
Example limit_exceptions :
  (demangle_with (limited 0 100 20) (L "?f@@YAXUX@@@Z") = Err (Io OutOfMemory) /\
   demangle_with (limited NAME_ONLY 100 20) (L "?f@@YAXUX@@@Z") = Ok (L "f")) /\
  (demangle_with (limited 0 31 1000) accepted_text = Err MaliciousInput /\ exists t, demangle_with (limited NO_TAG_SPECIFIER 31 1000) accepted_text = Ok t).
Proof. split; [split; vm_compute; reflexivity|]. split; [|eexists]; vm_compute; reflexivity. Qed.
Print Assumptions only_references_and_limits_decide.
Print Assumptions limits_decide_nothing_else.
Print Assumptions malformed_under_every_setting.
Print Assumptions accepted_under_every_setting.
