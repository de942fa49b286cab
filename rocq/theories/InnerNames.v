(** The names inside template arguments are not dropped either (C50).  Nothing here models code. *)
From Coq Require Import Permutation.
From Verif Require Import Parser Api Utf8 Lex Safety Mangle Trip Round RoundSyms RoundSpecials Specials Accepted AllNames Show Grammar.

(** ** Specification *)
Section Spelled.
  Variable E : env.
  Let ret := negb (no_return_type E).
  (** The names a name is made of: itself, or, for an instance of a template, the template's and
      those in the arguments. *)
  Inductive spells : str -> list str -> Prop :=
  | sp_name x : spells x [x]
  | sp_template b y G1 a xs G2 l : tbase E b (IText y) G1 -> targs E G1 a xs G2 -> arguments xs l ->
      spells (y ++ L "<" ++ join (L ", ") xs ++ L ">") (y :: l)
  (** Arguments that are types, alias templates, or addresses of variables and functions, with the names in them;
      of others nothing is said. *)
  with arguments : list str -> list str -> Prop :=
  | ar_nil : arguments [] []
  | ar_type y l xs l' : components (names_of ret y) l -> arguments xs l' -> arguments (show E y :: xs) (l ++ l')
  | ar_alias n l xs l' : components n l -> arguments xs l' -> arguments (qualified n :: xs) (l ++ l')
  | ar_variable a y path l xs l' : components (path ++ names_of ret y) l -> arguments xs l' ->
      arguments ((L "&" ++ show_variable E a y (qualified path)) :: xs) (l ++ l')
  | ar_function c a y path l xs l' : components (path ++ names_of ret y) l -> arguments xs l' ->
      arguments ((L "&" ++ show_function E c a (Some y) (qualified path)) :: xs) (l ++ l')
  | ar_other x xs l : arguments xs l -> arguments (x :: xs) l
  with components : list str -> list str -> Prop :=
  | co_nil : components [] []
  | co_cons x l xs l' : spells x l -> components xs l' -> components (x :: xs) (l ++ l').
End Spelled.
Scheme spells_ind' := Induction for spells Sort Prop
  with arguments_ind' := Induction for arguments Sort Prop
  with components_ind' := Induction for components Sort Prop.
Combined Scheme spelled_ind from spells_ind', arguments_ind', components_ind'.

(** ** Proofs *)
Lemma io_inside : forall ls xs t, Forall2 mentions ls xs -> in_order xs t -> mentions (concat ls) t.
Proof.
  intros ls xs t H Hi. revert ls H. induction Hi as [t|gap x xs t Hi IH]; intros ls H.
  - inversion H; subst. apply me_nil.
  - inversion H as [|l x' ls' xs' Hl Hls]; subst. cbn [concat]. apply me_behind. apply me_app; [exact Hl|apply IH; exact Hls].
Qed.
Lemma perm_parts : forall xs xs', Permutation xs xs' -> forall ls : list (list str), Forall2 mentions ls xs ->
  exists ls', Permutation ls ls' /\ Forall2 mentions ls' xs'.
Proof.
  induction 1 as [|x xs xs' P IH|x y xs|xs xs' xs'' P1 IH1 P2 IH2]; intros ls H.
  - exists ls. split; [reflexivity|exact H].
  - inversion H as [|l x' ls' xs0 Hl Hls]; subst. destruct (IH ls' Hls) as (m & Q1 & Q2). exists (l :: m). split; [constructor; exact Q1|constructor; assumption].
  - inversion H as [|l x' ls' xs0 Hl Hls]; subst. inversion Hls as [|l2 x2 ls2 xs2 Hl2 Hls2]; subst.
    exists (l2 :: l :: ls2). split; [constructor|constructor; [assumption|constructor; assumption]].
  - destruct (IH1 ls H) as (m & Q1 & Q2). destruct (IH2 m Q2) as (m' & Q3 & Q4). exists m'. split; [transitivity m; assumption|exact Q4].
Qed.
Lemma perm_concat : forall a b : list (list str), Permutation a b -> Permutation (concat a) (concat b).
Proof.
  induction 1 as [|x a b P IH|x y a|a b c P1 IH1 P2 IH2]; cbn [concat].
  - reflexivity.
  - apply Permutation_app_head. exact IH.
  - rewrite !app_assoc. apply Permutation_app_tail, Permutation_app_comm.
  - transitivity (concat b); assumption.
Qed.
(** Where names occur, so do, without overlap, the names they are made of. *)
Lemma me_inside ls xs t : Forall2 mentions ls xs -> mentions xs t -> mentions (concat ls) t.
Proof.
  intros H (xs' & P & Hi). destruct (perm_parts _ _ P ls H) as (ls' & P' & H').
  apply (me_perm (concat ls')); [apply perm_concat; symmetry; exact P'|]. eapply io_inside; eassumption.
Qed.

Section Inside.
  Variable E : env.
  Hypothesis Hno : name_only E = false.
  Hypothesis Hv : no_variable_type E = false.
  Lemma spelled_mentions :
    (forall x l, spells E x l -> mentions l x) /\
    (forall xs l, arguments E xs l -> exists ls, concat ls = l /\ Forall2 mentions ls xs) /\
    (forall xs l, components E xs l -> exists ls, concat ls = l /\ Forall2 mentions ls xs).
  Proof.
    assert (Hin : forall xs l t, (exists ls, concat ls = l /\ Forall2 mentions ls xs) -> mentions xs t -> mentions l t).
    { intros xs l t (ls & <- & H) Hm. eapply me_inside; eassumption. }
    apply (spelled_ind E (fun x l _ => mentions l x) (fun xs l _ => exists ls, concat ls = l /\ Forall2 mentions ls xs)
      (fun xs l _ => exists ls, concat ls = l /\ Forall2 mentions ls xs)).
    - intros x. apply me_one.
    - intros b y G1 a xs G2 l _ _ _ (ls & <- & H). change (y :: concat ls) with ([y] ++ concat ls).
      apply me_app; [apply me_one|]. apply me_behind, me_before. apply me_join. exact H.
    - exists []. split; [reflexivity|constructor].
    - intros y l xs l' _ IH _ (ls & <- & H). exists (l :: ls). split; [reflexivity|]. constructor; [|exact H].
      eapply Hin; [exact IH|]. apply type_names_printed. exact Hno.
    - intros n l xs l' _ IH _ (ls & <- & H). exists (l :: ls). split; [reflexivity|]. constructor; [|exact H].
      eapply Hin; [exact IH|]. apply me_names.
    - intros a y path l xs l' _ IH _ (ls & <- & H). exists (l :: ls). split; [reflexivity|]. constructor; [|exact H].
      eapply Hin; [exact IH|]. apply me_behind. apply (variable_mentions E Hno a y); [exact Hv|apply me_names].
    - intros c a y path l xs l' _ IH _ (ls & <- & H). exists (l :: ls). split; [reflexivity|]. constructor; [|exact H].
      eapply Hin; [exact IH|]. apply me_behind. apply (function_mentions E Hno c a y). apply me_names.
    - intros x xs l _ (ls & <- & H). exists ([] :: ls). split; [reflexivity|]. constructor; [apply me_nil|exact H].
    - exists []. split; [reflexivity|constructor].
    - intros x l xs l' _ IH _ (ls & <- & H). exists (l :: ls). split; [reflexivity|]. constructor; assumption.
  Qed.
End Inside.

(** The names in the arguments of templates, of templates in these arguments, and so on, are in the
    answer, without overlap. *)
Theorem no_argument_is_dropped : forall (E : env) (s out : str) (path : list str) (ys : list ty) (parts : list str),
  rust_str s -> declaration (code_limits E) s path ys -> demangle E s = Ok out ->
  name_only E = false -> no_variable_type E = false ->
  components (code_limits E) (path ++ names_in (negb (no_return_type E)) ys) parts ->
  mentions parts out.
Proof.
  intros E s out path ys parts Hs Hd Ho Hno Hv Hc.
  destruct (proj2 (proj2 (spelled_mentions (code_limits E) Hno Hv)) _ _ Hc) as (ls & <- & H).
  eapply me_inside; [exact H|]. eapply no_name_is_dropped; eassumption.
Qed.
Print Assumptions no_argument_is_dropped.

(** The hypotheses are met: a variable whose class is an instance over an instance. *)
Definition inner_text : str := L "?x@@3V?$A@V?$B@VC@@@@@@A".
Example inner_demangled : demangle (env_of 0) inner_text = Ok (L "class A<class B<class C>> x").
Proof. vm_compute. reflexivity. Qed.
Example inner_declared : exists ys, declaration (code_limits (env_of 0)) inner_text [L "x"] ys /\
  names_in true ys = [L "A<class B<class C>>"] /\
  components (code_limits (env_of 0)) ([L "x"] ++ names_in true ys) [L "x"; L "A"; L "B"; L "C"].
Proof.
  set (E := code_limits (env_of 0)).
  assert (Hi : forall x, In x [L "x"; L "A"; L "B"; L "C"] -> ident x).
  { intros x [<-|[<-|[<-|[<-|[]]]]]; (split; [repeat constructor|]); (split; [intros H; repeat (destruct H as [H|H]; [discriminate|]); exact H|]); (split; [reflexivity|discriminate]). }
  assert (Ix := Hi _ (or_introl eq_refl)). assert (IA := Hi _ (or_intror (or_introl eq_refl))).
  assert (IB := Hi _ (or_intror (or_intror (or_introl eq_refl)))). assert (IC := Hi _ (or_intror (or_intror (or_intror (or_introl eq_refl))))). clear Hi.
  pose proof (tb_base E _ _ _ (ub_name empty_tab (L "B") IB)) as HtB.
  pose proof (tb_base E _ _ _ (ub_name empty_tab (L "A") IA)) as HtA.
  set (GB := remember (L "B") empty_tab) in *. set (GA := remember (L "A") empty_tab) in *.
  pose proof (bo_tag E GB TKClass _ _ _ (qn_intro E _ _ _ _ _ _ _ (tn_name E GB (L "C") IC) (ch_end E _))) as HC.
  pose proof (ta_cons E _ _ _ _ _ _ _ (tg_type E _ _ _ _ HC) (ta_end E _)) as HaB.
  assert (HB := fun f => tp_intro E _ _ _ _ _ _ f HtB HaB). specialize (HB ltac:(vm_compute; reflexivity)).
  pose proof (bo_tag E GA TKClass _ _ _ (qn_intro E _ _ _ _ _ _ _ (tn_template E GA _ _ HB) (ch_end E _))) as HBB.
  pose proof (ta_cons E _ _ _ _ _ _ _ (tg_type E _ _ _ _ HBB) (ta_end E _)) as HaA.
  assert (HA := fun f => tp_intro E _ _ _ _ _ _ f HtA HaA). specialize (HA ltac:(vm_compute; reflexivity)).
  set (Gx := remember (L "x") empty_tab).
  pose proof (bo_tag E Gx TKClass _ _ _ (qn_intro E _ _ _ _ _ _ _ (tn_template E Gx _ _ HA) (ch_end E _))) as Hy.
  pose proof (va_plain E Gx (ch "3") None _ _ _ false false false sc_global Hy ltac:(discriminate)) as Hv.
  pose proof (dn_variable E _ _ _ _ _ _ _ _ _ _ _ [] (us_base E _ _ _ _ (ub_name empty_tab (L "x") Ix)) (ch_end E Gx) Hv (it_text E _ _ _)) as Hd.
  eexists. split; [exact Hd|]. split; [reflexivity|].
  refine (co_cons E _ [L "x"] _ _ (sp_name E _) (co_cons E _ [L "A"; L "B"; L "C"] [] [] _ (co_nil E))).
  assert (sC : components E [L "C"] [L "C"]) by exact (co_cons E _ [L "C"] [] [] (sp_name E _) (co_nil E)).
  assert (aC := ar_type E (TTag Q_None TKClass [L "C"]) [L "C"] [] [] sC (ar_nil E)).
  assert (sB : components E [L "B<class C>"] [L "B"; L "C"]) by exact (co_cons E _ [L "B"; L "C"] [] [] (sp_template E _ _ _ _ _ _ _ HtB HaB aC) (co_nil E)).
  assert (aB := ar_type E (TTag Q_None TKClass [L "B<class C>"]) [L "B"; L "C"] [] [] sB (ar_nil E)).
  exact (sp_template E _ _ _ _ _ _ _ HtA HaA aB).
Qed.
Example inner_mentions : mentions [L "x"; L "A"; L "B"; L "C"] (L "class A<class B<class C>> x").
Proof.
  destruct inner_declared as (ys & Hd & _ & Hc).
  exact (no_argument_is_dropped (env_of 0) inner_text _ _ ys _ ltac:(repeat constructor) Hd inner_demangled eq_refl eq_refl Hc).
Qed.
