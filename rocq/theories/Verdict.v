(** C36: flags choose what is shown, never what is accepted.  For every input without template
    instantiations and every two flag words, the two calls both succeed or both fail with the
    same error, unless one of them ran into the output limit. *)
From Verif Require Import Parser Api Utf8 Wf ParseOk Safety Show Emit Less LessOut LessParse Suppress OutErr SameErr.

(** ** Specification vocabulary *)

(** Two results say the same about the input: both accept it or both give the same error. *)
Definition same_verdict {A} (r r' : res A) : Prop :=
  (exists t t', r = Ok t /\ r' = Ok t') \/ (exists e, r = Err e /\ r' = Err e).
(** The call ran into the limit on output text. *)
Definition ran_out {A} (r : res A) : Prop := r = Err (Io OutOfMemory).

Lemma Q_init s : rust_str s -> template_free s -> Q (init_st s) (init_st s).
Proof.
  intros H1 H2. constructor; try reflexivity; try (apply Forall_nil).
  - apply Forall2_nil.
  - split; [exact H1|exact H2].
Qed.
Lemma whole_parse E E' s : rust_str s -> e_nodes E = e_nodes E' -> e_grow E = e_grow E' -> template_free s ->
  parse E s = Err (Io OutOfMemory) \/ parse E' s = Err (Io OutOfMemory) \/ (exists e, parse E s = Err e /\ parse E' s = Err e) \/
  (exists h t t', parse E s = Ok (h, t) /\ parse E' s = Ok (h, t') /\ Q t t').
Proof.
  intros Hs HN HG Ht. unfold parse.
  pose proof (parse_with_ok E (S (length s)) s Hs (Nat.lt_succ_diag_r _)) as P1.
  pose proof (parse_with_ok E' (S (length s)) s Hs (Nat.lt_succ_diag_r _)) as P2.
  destruct (sim_knot E E' HN HG (S (length s))) as [H _].
  destruct (H _ _ (Q_init s Hs Ht)) as [G|[G|[G|(h & t & t' & G1 & G2 & _ & G3)]]]; unfold parse_with in *.
  - destruct G as [G|[G|G]]; rewrite G in *; tauto.
  - destruct G as [G|[G|G]]; rewrite G in *; tauto.
  - auto.
  - right. right. right. exists h, t, t'. auto.
Qed.
Lemma whole_print E s h t : rust_str s -> (0 < e_out E)%N -> parse E s = Ok (h, t) -> (forall i n, nth_error (s_store t) i = Some n -> strs_ok n) ->
  demangle_with E s = Err (Io OutOfMemory) \/ exists x, demangle_with E s = Ok x.
Proof.
  intros Hs H0 Hp Ht. pose proof (demangle_facts E s Hs H0) as Hf. unfold demangle_with, demangle_into_with in *. rewrite Hp in *. unfold clear in *. cbn [b_cap] in *.
  pose proof (gw_output E (s_store t) Ht KSym h (mkBuf [] 0) (textb_nil 0)) as Hg.
  destruct (output E (s_store t) KSym h (mkBuf [] 0)) as [b [[]|e| |]]; try contradiction.
  - destruct Hg as (x & H1 & H2). rewrite H1, !from_utf8_utf8 in * by exact H2. rewrite ?H1, ?from_utf8_utf8 by exact H2. right. exists x. reflexivity.
  - left. rewrite Hg. reflexivity.
Qed.
Lemma verdict E E' s : rust_str s -> e_nodes E = e_nodes E' -> e_grow E = e_grow E' -> (0 < e_out E)%N -> (0 < e_out E')%N -> template_free s ->
  ~ ran_out (demangle_with E s) -> ~ ran_out (demangle_with E' s) -> same_verdict (demangle_with E s) (demangle_with E' s).
Proof.
  intros Hs HN HG H0 H0' Ht R1 R2.
  assert (Hpe : forall F e, parse F s = Err e -> demangle_with F s = Err e).
  { intros F e Hp. unfold demangle_with, demangle_into_with. rewrite Hp. reflexivity. }
  destruct (whole_parse E E' s Hs HN HG Ht) as [H|[H|[(e & H1 & H2)|(h & t & t' & H1 & H2 & HQ)]]].
  - exfalso. exact (R1 (Hpe _ _ H)).
  - exfalso. exact (R2 (Hpe _ _ H)).
  - right. exists e. auto.
  - destruct (q_strs _ _ HQ) as [S1 S2].
    destruct (whole_print E s h t Hs H0 H1 S1) as [G|[x Gx]]; [contradiction|].
    destruct (whole_print E' s h t' Hs H0' H2 S2) as [G|[x' Gx']]; [contradiction|].
    left. exists x, x'. auto.
Qed.

(** C36. *)
Theorem flags_never_decide : forall (E : env) (f g : N) (s : str),
  rust_str s -> template_free s ->
  ~ ran_out (demangle (with_flags f E) s) -> ~ ran_out (demangle (with_flags g E) s) ->
  same_verdict (demangle (with_flags f E) s) (demangle (with_flags g E) s).
Proof. intros E f g s Hs Ht R1 R2. apply verdict; auto; reflexivity. Qed.

(** In particular the verdict with no flags at all settles it. *)
Theorem rejected_under_all_flags : forall (E : env) (f : N) (s : str) (e : error),
  rust_str s -> template_free s -> demangle (with_flags 0 E) s = Err e -> e <> Io OutOfMemory ->
  demangle (with_flags f E) s = Err e \/ ran_out (demangle (with_flags f E) s).
Proof.
  intros E f s e Hs Ht H He.
  assert (Hd : ran_out (demangle (with_flags f E) s) \/ ~ ran_out (demangle (with_flags f E) s)).
  { unfold ran_out. destruct (demangle (with_flags f E) s) as [t|e'| |]; try (right; discriminate).
    destruct e'; try (right; discriminate). match goal with |- context [Io ?k] => destruct k end; [right; discriminate|left; reflexivity]. }
  destruct Hd as [Hd|Hd]; [right; exact Hd|left].
  destruct (flags_never_decide E 0 f s Hs Ht) as [(t & t' & G & _)|(e' & G1 & G2)]; [unfold ran_out; congruence|exact Hd|congruence|congruence].
Qed.

(** ** The hypotheses are met, and templates are a real exception *)
Definition outcome (f : N) (s : string) : res str := demangle (env_of f) (L s).
(** An error behind a local scope, whose text depends on the flags. *)
Example verdict_scope :
  outcome 0 "?x@?1??f@C@@QAEHH@Z@4HZ" = outcome NAME_ONLY "?x@?1??f@C@@QAEHH@Z@4HZ" /\
  (exists e, outcome 0 "?x@?1??f@C@@QAEHH@Z@4HZ" = Err e /\ e <> Io OutOfMemory).
Proof. vm_compute. split; [reflexivity|]. eexists. split; [reflexivity|discriminate]. Qed.
Example verdict_hyps : rust_str (L "?x@?1??f@C@@QAEHH@Z@4HZ") /\ ~ ran_out (outcome 0 "?x@?1??f@C@@QAEHH@Z@4HA") /\ ~ ran_out (outcome NAME_ONLY "?x@?1??f@C@@QAEHH@Z@4HA").
Proof. split; [repeat constructor|]. split; unfold ran_out; vm_compute; discriminate. Qed.
(** With a template instantiation the flags decide: [NO_TAG_SPECIFIER] breaks a reference. *)
Example verdict_template :
  ~ same_verdict (outcome 0 "?f@@YAXV?$A@UX@@@@V?$A@VX@@@@V2@@Z") (outcome NO_TAG_SPECIFIER "?f@@YAXV?$A@UX@@@@V?$A@VX@@@@V2@@Z").
Proof. unfold outcome. destruct suppress_template as [H1 H2]. unfold show_with in *. rewrite H1, H2. intros [(t & t' & A & B)|(e & A & B)]; discriminate. Qed.
Print Assumptions flags_never_decide.
Print Assumptions rejected_under_all_flags.
