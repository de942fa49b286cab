(** Brackets in demangled text match (C37): all readings of the grammar. *)
From Verif Require Import Parser Api Utf8 Safety Literal Number Mangle Trip Accepted StrLit Format SoundArgs Show Grammar Balance.

Section All.
  Variable angle : bool.
  Notation B := (pairs angle).
  Notation bal := (balanced B).
  Variable E : env.
  Hypothesis Hn : name_only E = false.
  Notation good := (good angle). Notation tabok := (tabok angle). Notation names_ok := (names_ok angle). Notation sig_ok := (sig_ok angle). Notation ido := (ido angle).
  Ltac const := apply bal_const; destruct angle; reflexivity.
  Definition res2 {A} (ok : A -> Prop) (G : tab) (t : str) (a : A) (G' : tab) : Prop := good t -> tabok G -> ok a /\ tabok G'.
  Ltac split_good := repeat match goal with
    | H : good (_ ++ _) |- _ => apply good_app in H; destruct H
    | H : good (_ :: ?t) |- _ => lazymatch t with [] => fail | _ => idtac end; apply good_cons in H; destruct H
    end.
  Ltac use_ih := repeat match goal with
    | IH : good ?t -> _, H : good ?t |- _ => specialize (IH H)
    | IH : tabok ?G -> _, H : tabok ?G |- _ => specialize (IH H)
    | IH : _ /\ _ |- _ => destruct IH
    | H : tabok ?G, H' : tabok ?G |- _ => clear H'
    | H : bal ?x, G : tabok ?T, IH : tabok (remember ?x ?T) -> _ |- _ => specialize (IH (tab_remember _ _ _ H G))
    end.
  Lemma grp x : bal x -> bal (L "{" ++ x ++ L "}").
  Proof. apply wraps_group. right. right. left. reflexivity. Qed.
  Ltac fin := repeat match goal with
      | H : ?G |- ?G => exact H
      | |- True => exact I
      | |- _ /\ _ => split
      | |- tabok (remember _ _) => apply tab_remember
      | |- tabok (remember_param _ _) => apply tab_param
      | |- tabok empty_tab => apply tab_empty
      | |- Forall _ [] => constructor
      | |- Forall _ (_ :: _) => constructor
      | |- Forall _ (_ ++ _) => apply Forall_app; split
      | |- Forall _ (map dec_Z _) => apply bal_offs
      | |- balanced _ [] => constructor
      | |- balanced _ (L "{" ++ ?a ++ ?b ++ ?c ++ L "}") => let H := fresh in pose proof (grp (a ++ b ++ c)) as H; rewrite <- !app_assoc in H; apply H; clear H
      | |- balanced _ (L "{" ++ ?a ++ ?b ++ ?c ++ ?d ++ ?e ++ L "}") => let H := fresh in pose proof (grp (a ++ b ++ c ++ d ++ e)) as H; rewrite <- !app_assoc in H; apply H; clear H
      | |- balanced _ (L "{" ++ ?a ++ ?b ++ ?c ++ ?d ++ ?e ++ ?f ++ ?g ++ L "}") => let H := fresh in pose proof (grp (a ++ b ++ c ++ d ++ e ++ f ++ g)) as H; rewrite <- !app_assoc in H; apply H; clear H
      | |- balanced _ (L "<" ++ join (L ", ") _ ++ L ">") => apply bal_targs
      | |- balanced _ (_ ++ _) => apply bal_app
      | |- balanced _ (opt _ _) => apply bal_opt
      | |- balanced _ (show _ _) => apply bal_show
      | |- balanced _ (dec_N _) => apply bal_dec
      | |- balanced _ (dec_Z _) => apply bal_decZ
      | |- balanced _ (qualified _) => apply bal_qualified
      | |- balanced _ (braces _) => apply bal_braces
      | |- balanced _ (show_variable _ _ _ _) => apply bal_variable
      | |- balanced _ (show_function _ _ _ _ _) => apply bal_function
      | |- balanced _ (show_table _ _ _ _) => apply bal_special
      | |- balanced _ (guard_text _ _) => apply bal_guard
      | |- balanced _ (base_descriptor_text _ _ _ _) => apply bal_base
      | |- balanced _ (vcall_text _ _) => apply bal_vcall
      | |- balanced _ (dynamic_text _ _ _) => apply bal_dynamic
      | |- Balance.ido _ (with_targs _ _) => apply ido_targs
      | |- Balance.names_ok _ (add_quals _ _) => apply names_quals
      | |- Balance.names_ok _ (replace_quals _ _) => apply names_quals
      | H : good ?x |- balanced _ ?x => apply good_bal; exact H
      | H : nth_error (fst ?G) _ = Some ?x |- balanced _ ?x => apply (tab_name _ _ _ _ H)
      | H : nth_error (snd ?G) _ = Some ?x |- Balance.names_ok _ ?x => apply (tab_type _ _ _ _ H)
      | H : literal _ _ ?x |- balanced _ ?x => apply (bal_literal _ _ _ _ H)
      | H : In (_, ?x) table_codes |- balanced _ ?x => apply (bal_table _ _ _ H)
      | H : In (_, ?x) rtti_codes |- balanced _ ?x => apply (bal_rtti _ _ _ H)
      | H : id_text _ _ _ _ ?x |- balanced _ ?x => apply (bal_id _ _ Hn _ _ _ _ H)
      | H : Balance.sig_ok _ ?s |- match (match ?s with _ => _ end) with _ => _ end => apply sig_ret; exact H
      | |- balanced _ (L _) => const
      end.
  Theorem balance_all :
    (forall G t x G', piece E G t x G' -> res2 bal G t x G') /\
    (forall G t xs G', chain E G t xs G' -> res2 (Forall bal) G t xs G') /\
    (forall G t x G', tname E G t x G' -> res2 bal G t x G') /\
    (forall G t x G', qname E G t x G' -> res2 (Forall bal) G t x G') /\
    (forall t x, template E t x -> good t -> bal x) /\
    (forall t i G', tbase E t i G' -> good t -> ido i /\ tabok G') /\
    (forall G t xs G', targs E G t xs G' -> res2 (Forall bal) G t xs G') /\
    (forall G t x G', targ E G t x G' -> res2 bal G t x G') /\
    (forall G t x G', auto_arg E G t x G' -> res2 bal G t x G') /\
    (forall G t y G', body E G t y G' -> res2 names_ok G t y G') /\
    (forall m G t y G', mtype E m G t y G' -> res2 names_ok G t y G') /\
    (forall G t y G', rtype E G t y G' -> res2 names_ok G t y G') /\
    (forall G t y G', rett E G t y G' -> res2 sig_ok G t y G') /\
    (forall G t y G', param E G t y G' -> res2 names_ok G t y G') /\
    (forall G t ys G', params E G t ys G' -> res2 (Forall names_ok) G t ys G') /\
    (forall G t ps v G', plist E G t ps v G' -> res2 (fun p => match p with Some l => Forall names_ok l | None => True end) G t ps G') /\
    (forall th G t y G', fn E th G t y G' -> res2 names_ok G t y G') /\
    (forall G t i G', usym E G t i G' -> res2 ido G t i G') /\
    (forall G t i G', dsym E G t i G' -> res2 ido G t i G') /\
    (forall G t a y G', variable E G t a y G' -> res2 names_ok G t y G') /\
    (forall G t k a s G', function E G t k a s G' -> res2 sig_ok G t s G') /\
    (forall G t x id G', symbol E G t x id G' -> res2 (fun p => bal (fst p) /\ bal (snd p)) G t (x, id) G').
  Proof.
    apply (grammar_m E); intros; unfold res2 in *; intros; split_good; use_ih; cbn [fst snd Balance.sig_ok Balance.ido Balance.names_ok] in *; use_ih.
    all: try (match goal with H : ubase _ _ _ _ |- _ => edestruct (ubase_bal angle) as [? ?]; [exact H|assumption|first [assumption | apply tab_empty]|] end).
    all: repeat match goal with IH : tabok (remember ?x ?T) -> _, H : tabok ?T |- _ => specialize (IH (tab_remember angle x T ltac:(fin) H)); destruct IH end.
    all: fin.
    - destruct ps as [pl|]; [apply all_fix; assumption|exact I].
    - exact I.
  Qed.
End All.

(** Inputs as the theorems describe them. *)
Lemma good_brackets s : free_of (L "()[]{}""") s -> good false s.
Proof.
  intros H. split; [|discriminate]. apply Forall_forall. intros c Hc. specialize (H c Hc). unfold plain, pairs, brackets. cbn [forallb fst snd].
  repeat match goal with |- context [(c =? ?k)%N] => destruct (N.eqb_spec c k) as [->|]; [exfalso; apply H; cbn; tauto|] end. reflexivity.
Qed.
Lemma good_angles s : free_of (L "()[]{}""<>") s -> (forall p, In p angle_codes -> without p s) -> good true s.
Proof.
  intros H Hw. split; [|intros _; exact Hw]. apply Forall_forall. intros c Hc. specialize (H c Hc). unfold plain, pairs, angles, brackets. cbn [forallb fst snd app].
  repeat match goal with |- context [(c =? ?k)%N] => destruct (N.eqb_spec c k) as [->|]; [exfalso; apply H; cbn; tauto|] end. reflexivity.
Qed.
Lemma reading_balanced angle E s x : name_only E = false -> good angle s -> reading E s x -> balanced (pairs angle) x.
Proof.
  intros Hn Hg H. destruct (balance_all angle E Hn) as (_ & Hchain & _ & _ & _ & _ & _ & _ & _ & _ & _ & Hrt & _ & _ & _ & _ & _ & _ & _ & _ & _ & Hsym).
  assert (Hc : forall w, chk true false [] w = true -> chk false false [] w = true -> balanced (pairs angle) w) by (intros w H1 H2; apply bal_const; destruct angle; assumption).
  destruct H.
  - apply good_app in Hg. destruct Hg as [Hg _]. apply (Hsym _ _ _ _ _ H Hg (tab_empty angle)).
  - apply good_app in Hg. destruct Hg as [Hg _]. apply good_bal. exact Hg.
  - apply (bal_literal _ _ _ _ H).
  - apply good_app in Hg. destruct Hg as [_ Hg]. destruct (Hrt _ _ _ _ H Hg (tab_empty angle)) as [Hy _]. unfold show_type_name. rewrite Hn.
    apply bal_app; [apply bal_sp, (bal_show angle E Hn y Hy)|apply Hc; reflexivity].
  - apply good_app in Hg. destruct Hg as [_ Hg]. apply good_app in Hg. destruct Hg as [Hg _]. destruct (Hrt _ _ _ _ H Hg (tab_empty angle)) as [Hy _].
    apply bal_variable; [exact Hn|exact Hy|apply Hc; reflexivity].
  - apply good_app in Hg. destruct Hg as [_ Hg]. apply good_app in Hg. destruct Hg as [Hg _]. destruct (Hchain _ _ _ _ H Hg (tab_empty angle)) as [Hy _].
    apply bal_qualified, Forall_app. split; [exact Hy|]. constructor; [|constructor]. destruct thread; apply Hc; reflexivity.
Qed.

(** ** Theorems *)
(** Without NAME_ONLY the brackets of a demangled text match and nest, if the input itself has
    none of them. *)
Theorem brackets_match : forall (E : env) (s x : str), rust_str s ->
  contains (e_flags E) NAME_ONLY = false -> free_of (L "()[]{}""") s -> demangle E s = Ok x -> balanced brackets x.
Proof.
  intros E s x Hs Hn Hf Hd. destruct (accepted_is_decorated E s x Hs Hd) as [H _]. apply (reading_balanced false (code_limits E) s x); [exact Hn|apply good_brackets; exact Hf|exact H].
Qed.
(** So do angle brackets, if there are none in the input and no operators are written with
    them. *)
Theorem angle_brackets_match : forall (E : env) (s x : str), rust_str s ->
  contains (e_flags E) NAME_ONLY = false -> free_of (L "()[]{}""<>") s -> (forall p, In p angle_codes -> without p s) ->
  demangle E s = Ok x -> balanced angles x.
Proof.
  intros E s x Hs Hn Hf Hw Hd. destruct (accepted_is_decorated E s x Hs Hd) as [H _]. apply (reading_balanced true (code_limits E) s x); [exact Hn|apply good_angles; assumption|exact H].
Qed.
Print Assumptions brackets_match.
Print Assumptions angle_brackets_match.

(** A declaration with every kind of bracket meets the hypotheses. *)
Definition bracket_text : str := L "?f@?$t@PAY02P6AHPAD@Z$H?g@@YAXXZA@@@QAEP6APAY02HN@ZXZ".
Fixpoint occurs (p s : str) : bool := starts_with p s || match s with [] => false | _ :: r => occurs p r end.
Lemma occurs_without p s : occurs p s = false -> without p s.
Proof.
  intros H a b ->. revert H. induction a as [|c a IH]; cbn [app occurs].
  - assert (Hs : starts_with p (p ++ b) = true).
    { unfold starts_with. replace (strip_prefix p (p ++ b)) with (Some b); [reflexivity|]. symmetry. induction p; cbn; [reflexivity|]. rewrite N.eqb_refl. exact IHp. }
    destruct (p ++ b) eqn:He; cbn [occurs]; rewrite Hs; discriminate.
  - intros H. apply orb_false_elim in H. destruct H as [_ H]. exact (IH H).
Qed.
Lemma free_check l s : forallb (fun c => negb (existsb (N.eqb c) l)) s = true -> free_of l s.
Proof.
  intros H c Hc Hl. rewrite forallb_forall in H. specialize (H c Hc). apply negb_true_iff in H. assert (existsb (N.eqb c) l = true) by (apply existsb_exists; exists c; split; [exact Hl|apply N.eqb_refl]). congruence.
Qed.
Example brackets_example : rust_str bracket_text /\ contains (e_flags (env_of 0)) NAME_ONLY = false /\
  free_of (L "()[]{}""<>") bracket_text /\ (forall p, In p angle_codes -> without p bracket_text) /\
  demangle (env_of 0) bracket_text =
    Ok (L "public: int (* (__cdecl * __thiscall t<int (__cdecl *(*)[3])(char *), {void __cdecl g(void), 0}>::f(void))(double))[3]").
Proof.
  split; [repeat constructor|]. split; [reflexivity|]. split; [apply free_check; vm_compute; reflexivity|]. split; [|vm_compute; reflexivity].
  intros p Hp. apply occurs_without. cbn in Hp. repeat (destruct Hp as [<-|Hp]; [vm_compute; reflexivity|]). contradiction.
Qed.
(** The hypotheses are needed: with NAME_ONLY the demangler loses the closing half of a function
    pointer that a function pointer returns; an operator may be an angle bracket; a name may hold
    a bracket. *)
Definition count (c : N) (s : str) : nat := length (filter (N.eqb c) s).
Lemma count_app c x y : count c (x ++ y) = count c x + count c y.
Proof. unfold count. rewrite filter_app, app_length. reflexivity. Qed.
Lemma count_cons c d y : count c (d :: y) = (if N.eqb c d then 1 else 0) + count c y.
Proof. unfold count. cbn [filter]. destruct (N.eqb c d); reflexivity. Qed.
Lemma balanced_counts B o c x : (forall o' c', In (o', c') B -> (o' = o <-> c' = c) /\ o' <> c /\ c' <> o) -> In (o, c) B ->
  balanced B x -> ~ In (ch """") x -> count o x = count c x.
Proof.
  intros Hd Hi. induction 1 as [|d x Hq Hn Hx IH|o' c' x y Hi' Hx IHx Hy IHy|q y Hq Hy IHy]; intros Hf.
  - reflexivity.
  - rewrite !count_cons, IH by (intros H; apply Hf; right; exact H). destruct (Hn _ _ Hi) as [H1 H2]. destruct (N.eqb_spec o d) as [e|_]; [congruence|]. destruct (N.eqb_spec c d) as [e|_]; [congruence|]. reflexivity.
  - rewrite !count_cons, !count_app, !count_cons, IHx, IHy.
    + destruct (Hd _ _ Hi') as [H1 [H2 H3]]. destruct (N.eqb_spec o o') as [e1|]; destruct (N.eqb_spec c c') as [e2|]; destruct (N.eqb_spec o c') as [e3|]; destruct (N.eqb_spec c o') as [e4|]; try congruence; try lia; exfalso; intuition congruence.
    + intros H. apply Hf. right. apply in_or_app. right. right. exact H.
    + intros H. apply Hf. right. apply in_or_app. left. exact H.
  - exfalso. apply Hf. left. reflexivity.
Qed.
Lemma unbalanced angle o c x : In (o, c) (pairs angle) -> forallb (fun c => negb (N.eqb c (ch """"))) x = true -> count o x <> count c x -> ~ balanced (pairs angle) x.
Proof.
  intros Hi Hf Hc Hb. apply Hc. eapply balanced_counts; [|exact Hi|exact Hb|].
  - intros o' c' Hi'. destruct angle; cbn in Hi, Hi'; repeat (destruct Hi as [Hi|Hi]; [injection Hi as <- <-|]); try contradiction;
      repeat (destruct Hi' as [Hi'|Hi']; [injection Hi' as <- <-; repeat split; intros; try discriminate; reflexivity|]); contradiction.
  - intros H. rewrite forallb_forall in Hf. specialize (Hf _ H). discriminate.
Qed.
Example brackets_of_names_only :
  demangle (env_of NAME_ONLY) (L "??$f@P6AP6AHXZXZ@@YAXXZ") = Ok (L "f<int (__cdecl * (__cdecl *)(void)>") /\
  ~ balanced brackets (L "f<int (__cdecl * (__cdecl *)(void)>").
Proof.
  split; [vm_compute; reflexivity|]. apply (unbalanced false (ch "(") (ch ")")); [left; reflexivity|reflexivity|vm_compute; lia].
Qed.
Example brackets_of_operators :
  demangle (env_of 0) (L "??M@YA_NHH@Z") = Ok (L "bool __cdecl operator<(int, int)") /\ ~ balanced angles (L "bool __cdecl operator<(int, int)").
Proof.
  split; [vm_compute; reflexivity|]. apply (unbalanced true (ch "<") (ch ">")); [cbn; tauto|reflexivity|vm_compute; lia].
Qed.
Example brackets_of_input : demangle (env_of 0) (L "?a(@@3HA") = Ok (L "int a(") /\ ~ balanced brackets (L "int a(").
Proof.
  split; [vm_compute; reflexivity|]. apply (unbalanced false (ch "(") (ch ")")); [left; reflexivity|reflexivity|vm_compute; lia].
Qed.
