(** C29: suppression flags only remove text.  Every accepted input without template
    instantiations is covered, not only those of the grammar. *)
From Verif Require Import Parser Api Utf8 Lex Wf PrintOk ParseOk Safety Show Emit Less LessOut LessParse Trailing.

(** ** Specification vocabulary *)

(** The same machine with another flag word. *)
Definition with_flags (f : N) (E : env) : env :=
  {| e_flags := f; e_alnum := e_alnum E; e_grow := e_grow E; e_nodes := e_nodes E; e_out := e_out E |}.
(** Every flag of [f] is in [g]. *)
Definition flags_within (f g : N) : Prop := forall i, N.testbit f i = true -> N.testbit g i = true.
(** The text has no template instantiation in it. *)
Definition template_free (s : str) : Prop := forall p q, s <> p ++ L "?$" ++ q.
(** [subsequence a b] (Less.v, [deletes]): [a] is [b] with some characters deleted. *)
Inductive subsequence : str -> str -> Prop :=
| sub_nil : subsequence [] []
| sub_keep c a b : subsequence a b -> subsequence (c :: a) (c :: b)
| sub_drop c a b : subsequence a b -> subsequence a (c :: b).
Lemma sub_del a b : deletes a b -> subsequence a b.
Proof. induction 1; constructor; assumption. Qed.

Lemma within_land f g m : flags_within f g -> contains f m = true -> contains g m = true.
Proof.
  intros H Hf. unfold contains in *. apply N.eqb_eq in Hf. apply N.eqb_eq. apply N.bits_inj. intros i. rewrite N.land_spec.
  assert (Hi : N.testbit (N.land f m) i = N.testbit m i) by (rewrite Hf; reflexivity). rewrite N.land_spec in Hi.
  specialize (H i). destruct (N.testbit m i), (N.testbit f i), (N.testbit g i); cbn in *; try reflexivity; try discriminate; intuition congruence.
Qed.
Lemma less_flags f g E : flags_within f g -> less (code_limits (with_flags f E)) (code_limits (with_flags g E)).
Proof. intros H. constructor; try reflexivity; try (intros; reflexivity); apply within_land; assumption. Qed.

Lemma R_init s : rust_str s -> template_free s -> R (init_st s) (init_st s).
Proof.
  intros H1 H2. constructor; try reflexivity; try (apply Forall_nil).
  - apply Forall2_nil.
  - intros h n H. destruct h; discriminate H.
  - split; [exact H1|exact H2].
Qed.

Section Top.
  Variables E E' : env.
  Hypothesis V : less E E'.
  Hypothesis HN : e_nodes E = e_nodes E'.
  Hypothesis Hgrow : e_grow E = e_grow E'.

  Lemma accepted s t : demangle_with E s = Ok t -> exists h u b x, parse E s = Ok (h, u) /\
    output E (s_store u) KSym h (mkBuf [] 0) = (b, Ok tt) /\ from_utf8 (b_bytes b) = Some x /\ t = x.
  Proof.
    unfold demangle_with, demangle_into_with. destruct (parse E s) as [[h u]| | |]; try discriminate. unfold clear. cbn [b_cap].
    destruct (output E (s_store u) KSym h (mkBuf [] 0)) as [b [[]| | |]] eqn:Hb; try discriminate.
    destruct (from_utf8 (b_bytes b)) as [x|] eqn:Hx; [|discriminate]. rewrite Hx. intros H. injection H as <-. exists h, u, b, x. auto.
  Qed.
  Lemma accepts F s h u b x : parse F s = Ok (h, u) -> output F (s_store u) KSym h (mkBuf [] 0) = (b, Ok tt) -> good b x -> demangle_with F s = Ok x.
  Proof.
    intros H1 H2 [H3 H4]. unfold demangle_with, demangle_into_with. rewrite H1. unfold clear. cbn [b_cap]. rewrite H2, H3, !from_utf8_utf8 by exact H4. rewrite ?H3, ?from_utf8_utf8 by exact H4. reflexivity.
  Qed.

  Lemma top_symbol s t : rust_str s -> template_free s -> starts_with (L ".") s = false -> demangle_with E s = Ok t ->
    exists t', demangle_with E' s = Ok t' /\ deletes t' t.
  Proof.
    intros Hs Ht Hd H. destruct (accepted s t H) as (h & u & b & x & Hp & Ho & Hx & ->).
    destruct (knots E E' V HN Hgrow (length s)) as [K1 K2]. unfold parse, parse_with in Hp. cbn [knot_of k_parse] in Hp.
    destruct (sp_parse E E' V HN Hgrow _ _ K1 K2 _ _ (R_init s Hs Ht) Hd h u Hp) as (u' & Hp' & HR & _ & _).
    unfold output in Ho.
    destruct (ks_var _ _ _ _ _ (sim_store E E' V u u' HR (S (length (s_store u)))) True KSym h I _ _ _ _ (good_nil 0) (good_nil 0) (start E E' V True) b Ho)
      as (b' & y & y' & Ho' & G & G' & HS).
    rewrite (srel_len _ _ (r_st _ _ HR)) in Ho'. exists y'. split; [eapply accepts; [exact Hp'|exact Ho'|exact G']|].
    destruct G as [G1 G2]. rewrite G1, from_utf8_utf8 in Hx by exact G2. injection Hx as <-. apply HS.
  Qed.

  Lemma put_tail y y' tl b b' b1 : good b y -> good b' y' -> S0 E y y' -> tl <> [] -> ustr tl -> put E tl b = (b1, Ok tt) ->
    exists b1', put E' tl b' = (b1', Ok tt) /\ good b1 (y ++ tl) /\ good b1' (y' ++ tl) /\ deletes (y' ++ tl) (y ++ tl).
  Proof.
    intros G G' HS Hn Hu Hw. destruct (put2 E E' V True tl tl b b' y y' b1 (del_refl _) Hn eq_refl Hu Hu G G' HS Hw) as (b1' & H1 & H2 & H3 & H4).
    exists b1'. repeat (split; [assumption|]). apply H4.
  Qed.
  Definition desc_tail : str := L "`RTTI Type Descriptor Name'".
  Lemma top_typeinfo r t : rust_str (ch "." :: r) -> template_free (ch "." :: r) -> demangle_with E (ch "." :: r) = Ok t ->
    exists t', demangle_with E' (ch "." :: r) = Ok t' /\ (deletes t' t \/ exists x, t' = x ++ L " " ++ desc_tail /\ deletes (x ++ desc_tail) t).
  Proof.
    intros Hs Ht H. pose proof (R_init _ Hs Ht) as HR0. destruct (accepted _ t H) as (h & u & b & x & Hp & Ho & Hx & ->).
    destruct (knots E E' V HN Hgrow (length (ch "." :: r))) as [K1 K2].
    assert (Hw : wfk (from_input (ch "." :: r)) (s_store u) tt_P KSym h).
    { pose proof (parse_with_ok E (S (length (ch "." :: r))) (ch "." :: r) Hs (Nat.lt_succ_diag_r _)) as Hok. unfold parse in Hp. rewrite Hp in Hok. apply Hok. }
    unfold parse, parse_with in Hp. cbn [knot_of k_parse] in Hp.
    assert (Hdo : forall F K, do_parse F K (init_st (ch "." :: r)) = demangle_typeinfo_name F K (init_st (ch "." :: r))) by reflexivity.
    rewrite Hdo in Hp. unfold demangle_typeinfo_name in Hp. unfold bind at 1 in Hp.
    destruct (expect_char (ch ".") InvalidTypeinfoName (init_st (ch "." :: r))) as [[[] s1]| | |] eqn:He; try discriminate Hp.
    destruct (sp_obl tt_ _ _ _ _ (obl_expect_char (ch ".") InvalidTypeinfoName) HR0 _ _ He) as (s1' & He' & HR1 & _ & _).
    assert (s1' = s1) by congruence. subst s1'. unfold bind at 1 in Hp.
    destruct (k_type (knot_of E (length (ch "." :: r))) QResult s1) as [[ty s2]| | |] eqn:Hk; try discriminate Hp.
    destruct (K2 QResult s1 s1 HR1 ty s2 Hk) as (s2' & Hk' & HR2 & _ & Hnv). unfold bind, text in Hp.
    destruct (is_empty (ms_str (s_ms s2))) eqn:Hem; [|discriminate Hp]. unfold intern in Hp.
    destruct (e_nodes E <? N.of_nat (length (s_store s2) + 1))%N eqn:Hfull; [discriminate Hp|]. injection Hp as <- <-. cbn [s_store set_store] in Ho, Hw.
    set (D := NVar (Some VTypeDescriptor) None (Some ty)) in *. set (sg := s_store s2 ++ [D]) in *. set (sg' := s_store s2' ++ [D]).
    set (hd := length (s_store s2)) in *.
    assert (Hp' : parse E' (ch "." :: r) = Ok (hd, set_store sg' s2')).
    { unfold parse, parse_with. cbn [knot_of k_parse]. rewrite Hdo. unfold demangle_typeinfo_name. unfold bind at 1. rewrite He. unfold bind at 1. rewrite Hk'.
      unfold bind, text. rewrite (r_ms _ _ HR2), Hem. unfold intern. rewrite <- (srel_len _ _ (r_st _ _ HR2)), <- HN. fold hd. rewrite Hfull. reflexivity. }
    assert (HRs : srel sg sg') by (apply Forall2_app; [exact (r_st _ _ HR2)|constructor; [apply nrel_refl; exact I|constructor]]).
    assert (Hn : nth_error sg hd = Some D) by (unfold sg, hd; rewrite nth_error_app2, Nat.sub_diag by lia; reflexivity).
    assert (Hn' : nth_error sg' hd = Some D) by (unfold sg', hd; rewrite (srel_len _ _ (r_st _ _ HR2)), nth_error_app2, Nat.sub_diag by lia; reflexivity).
    set (G := fun c => wf (from_input (ch "." :: r)) sg (fun i => tt_P i /\ i <> hd) c).
    assert (HG : forall i n, G i -> nth_error sg i = Some n -> (forall x c, In (x, c) (kids n) -> G c) /\ is_desc n = false /\ tag_ok sg n).
    { intros i n Gi Hi. destruct (wf_inv _ _ _ _ Gi) as (m & Hm & [_ Hne] & _ & Hkids). assert (m = n) by congruence. subst m. split; [exact Hkids|].
      assert (Hlt : i < length (s_store s2)).
      { assert (Hil : i < length sg) by (apply nth_error_Some; congruence). unfold sg in Hil. rewrite app_length in Hil. cbn [length] in Hil. unfold hd in Hne. lia. }
      unfold sg in Hi. rewrite nth_error_app1 in Hi by exact Hlt. destruct (r_ok _ _ HR2 i n Hi) as [A1 A2]. split; [exact A1|].
      eapply keeps_tag; [apply keeps_app|exact A2]. }
    assert (Gty : G ty) by (eapply (wf_kid_avoid _ sg tt_P hd D (KK KType) ty); [apply Hw|exact Hn|left; reflexivity]).
    pose proof (sim_out E E' V sg sg' G HRs HG (length sg)) as Hsim.
    assert (Hout : forall F st fuel c, nth_error st hd = Some D -> out (S fuel) F st OFull KSym hd c =
      (out fuel F st OFull KType ty >> w_if (negb (name_only F)) (space_if_necessary F >> put F desc_tail)) c).
    { intros F st fuel c Hc. cbn [out]. unfold resolve. rewrite Hc. unfold D. cbn [hkind is_sym out_node out_full]. unfold var_out. cbv beta iota zeta. unfold w_opt.
      rewrite !andb_false_r. unfold w_seq at 1. destruct (negb (no_access_specifier F) && negb (name_only F)); reflexivity. }
    unfold output in Ho. rewrite Hout in Ho by exact Hn. unfold w_seq at 1 in Ho.
    destruct (out (length sg) E sg OFull KType ty (mkBuf [] 0)) as [c1 [[]| | |]] eqn:Hc1; try discriminate Ho.
    destruct (ks_full _ _ _ _ _ Hsim True KType ty Gty eq_refl _ _ _ _ (good_nil 0) (good_nil 0) (start E E' V True) c1 Hc1) as (c1' & y & y' & Hc1' & Gy & Gy' & HQ).
    assert (Hfin : forall z c2, good c2 z -> w_if (negb (name_only E')) (space_if_necessary E' >> put E' desc_tail) c1' = (c2, Ok tt) -> demangle_with E' (ch "." :: r) = Ok z).
    { intros z c2 Gz Hz. eapply accepts; [exact Hp'| |exact Gz]. cbn [s_store set_store]. unfold output. rewrite Hout by exact Hn'. unfold w_seq at 1.
      rewrite <- (srel_len _ _ HRs), Hc1'. exact Hz. }
    assert (Hxy : forall z, good b z -> x = z) by (intros z [Z1 Z2]; rewrite Z1, from_utf8_utf8 in Hx by exact Z2; congruence).
    destruct HQ as (HS & _ & HW). destruct (name_only E) eqn:N1.
    - pose proof (le_name _ _ V N1) as N2. cbn [negb w_if] in Ho. injection Ho as <-. exists y'. split; [apply (Hfin y' c1' Gy'); rewrite N2; reflexivity|].
      left. rewrite (Hxy y Gy). apply HS.
    - cbn [negb w_if] in Ho. unfold w_seq in Ho. destruct (space_if_necessary E c1) as [c2 [[]| | |]] eqn:Hsp; try discriminate Ho.
      assert (Hu : ustr desc_tail) by us. assert (Hne : desc_tail <> []) by discriminate.
      destruct (name_only E') eqn:N2.
      + exists y'. split; [apply (Hfin y' c1' Gy'); reflexivity|]. left.
        destruct (onew_space E any I I c1 y Gy (proj2 HS) c2 Hsp) as (z & Gz & _ & Lz).
        destruct (put_ok E E desc_tail c2 b _ eq_refl Gz Hu Lz Ho) as [Gb _]. rewrite (Hxy _ Gb). apply del_app_r, del_app_r, HS.
      + rewrite (space_eq E c1 y Gy) in Hsp. pose proof (space_eq E' c1' y' Gy') as Hsp'. rewrite (word' E E' V) in Hsp'. unfold word in *.
        destruct (ends_word E y) eqn:W1.
        * destruct (put_tail y y' (L " ") c1 c1' c2 Gy Gy' HS ltac:(discriminate) (ustr_sp) Hsp) as (c2' & P1 & P2 & P3 & P4).
          assert (L2 : (N.of_nat (str_bytes (y ++ L " ")) < e_out E)%N) by (destruct (put_ok E E (L " ") c1 c2 y eq_refl Gy ustr_sp (proj2 HS) Hsp); assumption).
          destruct (ends_word E y') eqn:W2.
          -- destruct (put_tail _ _ desc_tail c2 c2' b P2 P3 (conj P4 L2) Hne Hu Ho) as (c3 & Q1 & Q2 & Q3 & Q4).
             exists ((y' ++ L " ") ++ desc_tail). split; [|left; rewrite (Hxy _ Q2); exact Q4]. apply (Hfin _ c3 Q3). cbn [negb w_if]. unfold w_seq. rewrite Hsp', P1. exact Q1.
          -- destruct (put_tail _ _ desc_tail c2 c1' b P2 Gy' (conj (del_app_r _ _ _ (proj1 HS)) L2) Hne Hu Ho) as (c3 & Q1 & Q2 & Q3 & Q4).
             exists (y' ++ desc_tail). split; [|left; rewrite (Hxy _ Q2); exact Q4]. apply (Hfin _ c3 Q3). cbn [negb w_if]. unfold w_seq. rewrite Hsp'. exact Q1.
        * injection Hsp as <-.
          destruct (put_tail _ _ desc_tail c1 c1' b Gy Gy' HS Hne Hu Ho) as (c3 & Q1 & Q2 & Q3 & Q4).
          destruct (ends_word E y') eqn:W2.
          -- destruct (HW eq_refl) as [HW'|HW']; [discriminate HW'|].
             assert (Ly : (N.of_nat (str_bytes (y ++ desc_tail)) < e_out E)%N) by (destruct (put_ok E E desc_tail c1 b y eq_refl Gy Hu (proj2 HS) Ho); assumption).
             assert (Lz : (N.of_nat (str_bytes ((y' ++ L " ") ++ desc_tail)) < e_out E)%N) by (rewrite !str_bytes_app in *; change (str_bytes (L " ")) with 1; lia).
             assert (L1 : (N.of_nat (str_bytes (y' ++ L " ")) < e_out E)%N) by (rewrite str_bytes_app in Lz; lia).
             assert (L0 : (N.of_nat (str_bytes y') < e_out E)%N) by (rewrite str_bytes_app in L1; lia).
             destruct (put_can E E' (L " ") c1' y' (eq_sym (le_out _ _ V)) Gy' L1) as [c2' P1].
             destruct (put_ok E E' (L " ") c1' c2' y' (eq_sym (le_out _ _ V)) Gy' ustr_sp L0 P1) as [P2 _].
             destruct (put_can E E' desc_tail c2' _ (eq_sym (le_out _ _ V)) P2 Lz) as [c3' P3].
             destruct (put_ok E E' desc_tail c2' c3' _ (eq_sym (le_out _ _ V)) P2 Hu L1 P3) as [P4 _].
             exists ((y' ++ L " ") ++ desc_tail). split; [apply (Hfin _ c3' P4); cbn [negb w_if]; unfold w_seq; rewrite Hsp', P1; exact P3|].
             right. exists y'. rewrite <- app_assoc. split; [reflexivity|]. rewrite (Hxy _ Q2). exact Q4.
          -- exists (y' ++ desc_tail). split; [|left; rewrite (Hxy _ Q2); exact Q4]. apply (Hfin _ c3 Q3). cbn [negb w_if]. unfold w_seq. rewrite Hsp'. exact Q1.
  Qed.
End Top.

(** C29: adding suppression flags keeps an accepted symbol accepted, and only deletes text. *)
Theorem flags_only_delete : forall (E : env) (f g : N) (s t : str),
  flags_within f g -> rust_str s -> template_free s -> ~ begins_with (L ".") s ->
  demangle (with_flags f E) s = Ok t ->
  exists t', demangle (with_flags g E) s = Ok t' /\ subsequence t' t.
Proof.
  intros E f g s t Hfg Hs Ht Hd H.
  destruct (top_symbol (code_limits (with_flags f E)) (code_limits (with_flags g E)) (less_flags f g E Hfg) eq_refl eq_refl s t Hs Ht) as (t' & H1 & H2); [|exact H|].
  - destruct (starts_with (L ".") s) eqn:Hb; [|reflexivity]. apply starts_begins in Hb. contradiction.
  - exists t'. split; [exact H1|apply sub_del; exact H2].
Qed.

(** C29, type-info names: at most one space can appear, in front of the fixed ending. *)
Theorem flags_only_delete_typeinfo : forall (E : env) (f g : N) (s t : str),
  flags_within f g -> rust_str s -> template_free s -> begins_with (L ".") s ->
  demangle (with_flags f E) s = Ok t ->
  exists t', demangle (with_flags g E) s = Ok t' /\
    (subsequence t' t \/ exists x, t' = x ++ L " `RTTI Type Descriptor Name'" /\ subsequence (x ++ L "`RTTI Type Descriptor Name'") t).
Proof.
  intros E f g s t Hfg Hs Ht (r & ->) H.
  destruct (top_typeinfo (code_limits (with_flags f E)) (code_limits (with_flags g E)) (less_flags f g E Hfg) eq_refl eq_refl r t Hs Ht H) as (t' & H1 & H2).
  exists t'. split; [exact H1|]. destruct H2 as [H2|(x & -> & H2)]; [left; apply sub_del; exact H2|right].
  exists x. split; [reflexivity|apply sub_del; exact H2].
Qed.

(** No flag at all makes an accepted symbol fail. *)
Theorem flags_keep_acceptance : forall (E : env) (f g : N) (s t : str),
  flags_within f g -> rust_str s -> template_free s ->
  demangle (with_flags f E) s = Ok t -> exists t', demangle (with_flags g E) s = Ok t' /\ length t' <= S (length t).
Proof.
  assert (Hlen : forall a b, subsequence a b -> length a <= length b) by (induction 1; cbn; lia).
  intros E f g s t Hfg Hs Ht H. destruct (starts_with (L ".") s) eqn:Hb.
  - destruct (flags_only_delete_typeinfo E f g s t Hfg Hs Ht) as (t' & H1 & H2); [apply starts_begins; exact Hb|exact H|].
    exists t'. split; [exact H1|]. destruct H2 as [H2|(x & -> & H2)]; [apply Hlen in H2; lia|]. apply Hlen in H2. rewrite app_length in *. cbn [length L] in *.
    change (length (L " `RTTI Type Descriptor Name'")) with (S (length (L "`RTTI Type Descriptor Name'"))). lia.
  - destruct (flags_only_delete E f g s t Hfg Hs Ht) as (t' & H1 & H2); [rewrite <- starts_begins; congruence|exact H|].
    exists t'. split; [exact H1|]. apply Hlen in H2. lia.
Qed.

(** ** The hypotheses are met, and the exceptions are real *)
Definition show_with (f : N) (s : string) : res str := demangle (env_of f) (L s).
(** A symbol with a local scope: the scope's text shrinks, the symbol stays. *)
Example suppress_symbol :
  show_with 0 "?x@?1??f@C@@QAEHH@Z@4HA" = Ok (L "int `public: int __thiscall C::f(int)'::`2'::x") /\
  show_with NAME_ONLY "?x@?1??f@C@@QAEHH@Z@4HA" = Ok (L "`C::f'::`2'::x").
Proof. vm_compute. split; reflexivity. Qed.
(** A type-info name gains a space (C29 does not hold of it without the exception). *)
Example suppress_typeinfo :
  show_with 0 ".P6AP6AHH@ZX_E" = Ok (L "int (__cdecl * (__cdecl *)(void) noexcept)(int)`RTTI Type Descriptor Name'") /\
  show_with NO_RETURN_TYPE ".P6AP6AHH@ZX_E" = Ok (L "(__cdecl *)(void) noexcept `RTTI Type Descriptor Name'").
Proof. vm_compute. split; reflexivity. Qed.
(** With templates, hiding the tags merges remembered names and a reference goes astray. *)
Example suppress_template :
  show_with 0 "?f@@YAXV?$A@UX@@@@V?$A@VX@@@@V2@@Z" = Ok (L "void __cdecl f(class A<struct X>, class A<class X>, class A<class X>)") /\
  show_with NO_TAG_SPECIFIER "?f@@YAXV?$A@UX@@@@V?$A@VX@@@@V2@@Z" = Err InvalidBackRef.
Proof. vm_compute. split; reflexivity. Qed.
Print Assumptions flags_only_delete.
Print Assumptions flags_only_delete_typeinfo.
Print Assumptions flags_keep_acceptance.
