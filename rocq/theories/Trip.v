(** The round trip: every text of the grammar of [Grammar] demangles to the C++ text it stands
    for, whatever follows it. *)
From Verif Require Import Parser Api Utf8 Show Literal Den Emit Grammar Lex Step Number Pend ReadAt Round RoundNames RoundTypes RoundBody RoundArgs RoundSyms RoundSpecials Safety Limits Short.

Scheme piece_m := Minimality for piece Sort Prop
  with chain_m := Minimality for chain Sort Prop
  with tname_m := Minimality for tname Sort Prop
  with qname_m := Minimality for qname Sort Prop
  with template_m := Minimality for template Sort Prop
  with tbase_m := Minimality for tbase Sort Prop
  with targs_m := Minimality for targs Sort Prop
  with targ_m := Minimality for targ Sort Prop
  with auto_arg_m := Minimality for auto_arg Sort Prop
  with body_m := Minimality for body Sort Prop
  with mtype_m := Minimality for mtype Sort Prop
  with rtype_m := Minimality for rtype Sort Prop
  with rett_m' := Minimality for rett Sort Prop
  with param_m := Minimality for param Sort Prop
  with params_m := Minimality for params Sort Prop
  with plist_m := Minimality for plist Sort Prop
  with fn_m := Minimality for fn Sort Prop
  with usym_m := Minimality for usym Sort Prop
  with dsym_m := Minimality for dsym Sort Prop
  with variable_m := Minimality for variable Sort Prop
  with function_m := Minimality for function Sort Prop
  with symbol_m := Minimality for symbol Sort Prop.
Combined Scheme grammar_m from piece_m, chain_m, tname_m, qname_m, template_m, tbase_m, targs_m, targ_m, auto_arg_m, body_m, mtype_m, rtype_m,
  rett_m', param_m, params_m, plist_m, fn_m, usym_m, dsym_m, variable_m, function_m, symbol_m.

(** A locator suffix does not appear behind a text that contains an ['@']. *)
Lemma chain_at_sign E G t xs G' : chain E G t xs G' -> In (ch "@") t.
Proof. induction 1; repeat (apply in_or_app; right); try assumption; left; reflexivity. Qed.
Lemma targs_at_sign E G t xs G' : targs E G t xs G' -> In (ch "@") t.
Proof. induction 1; repeat (apply in_or_app; right); try assumption; left; reflexivity. Qed.
Lemma no_locator_app t rest : In (ch "@") t -> no_locator t -> no_locator (t ++ rest).
Proof.
  intros Hi Hn r Hr. assert (Hl : firstn 6 (t ++ rest) = locator) by (rewrite Hr; reflexivity).
  destruct (le_lt_dec 6 (length t)) as [H6|H6].
  - rewrite firstn_app in Hl. replace (6 - length t) with 0 in Hl by lia. rewrite firstn_O, app_nil_r in Hl.
    apply (Hn (skipn 6 t)). rewrite <- Hl. symmetry. apply firstn_skipn.
  - assert (Ht : t = firstn (length t) locator).
    { rewrite <- Hl, firstn_firstn, Nat.min_l, firstn_app, Nat.sub_diag, firstn_all, app_nil_r by lia. reflexivity. }
    assert (H5 : In (ch "@") (firstn 5 locator)).
    { rewrite Ht in Hi. replace (firstn (length t) locator) with (firstn (length t) (firstn 5 locator)) in Hi by (rewrite firstn_firstn, Nat.min_l by lia; reflexivity).
      rewrite <- (firstn_skipn (length t) (firstn 5 locator)). apply in_or_app. left. exact Hi. }
    cbn in H5. repeat (destruct H5 as [H5|H5]; [discriminate H5|]). exact H5.
Qed.
Lemma chain_no_locator E G t xs G' : chain E G t xs G' -> no_locator t -> forall rest, no_locator (t ++ rest).
Proof. intros H Hn rest. apply no_locator_app; [eapply chain_at_sign; exact H|exact Hn]. Qed.
Lemma targs_no_locator E G t xs G' : targs E G t xs G' -> no_locator t -> forall rest, no_locator (t ++ rest).
Proof. intros H Hn rest. apply no_locator_app; [eapply targs_at_sign; exact H|exact Hn]. Qed.

Section Trip.
  Variable E : env.
  Variable B : nat.
  Theorem read_all :
    (forall G t x G', piece E G t x G' -> P_piece E B G t x G') /\
    (forall G t xs G', chain E G t xs G' -> P_chain E B G t xs G') /\
    (forall G t x G', tname E G t x G' -> P_tname E B G t x G') /\
    (forall G t x G', qname E G t x G' -> P_qname E B G t x G') /\
    (forall t x, template E t x -> P_template E B t x) /\
    (forall t i G', tbase E t i G' -> P_tbase E B t i G') /\
    (forall G t xs G', targs E G t xs G' -> P_targs E B G t xs G') /\
    (forall G t x G', targ E G t x G' -> P_targ E B G t x G') /\
    (forall G t x G', auto_arg E G t x G' -> P_auto_arg E B G t x G') /\
    (forall G t y G', body E G t y G' -> P_body E B G t y G') /\
    (forall m G t y G', mtype E m G t y G' -> P_mtype E B m G t y G') /\
    (forall G t y G', rtype E G t y G' -> P_rtype E B G t y G') /\
    (forall G t y G', rett E G t y G' -> P_rett E B G t y G') /\
    (forall G t y G', param E G t y G' -> P_param E B G t y G') /\
    (forall G t ys G', params E G t ys G' -> P_params E B G t ys G') /\
    (forall G t ps v G', plist E G t ps v G' -> P_plist E B G t ps v G') /\
    (forall th G t y G', fn E th G t y G' -> P_fn E B th G t y G') /\
    (forall G t i G', usym E G t i G' -> P_usym E B G t i G' /\ forall r, ordinary (t ++ r)) /\
    (forall G t i G', dsym E G t i G' -> P_usym E B G t i G') /\
    (forall G t a y G', variable E G t a y G' -> P_variable E B G t a y G') /\
    (forall G t k a s G', function E G t k a s G' -> P_function E B G t k a s G') /\
    (forall G t x id G', symbol E G t x id G' -> P_symbol E B G t x id G').
  Proof.
    apply (grammar_m E); intros.
    - apply c_pc_ref; assumption.
    - apply c_pc_name; assumption.
    - apply c_pc_anonymous; assumption.
    - apply c_pc_template; assumption.
    - eapply c_pc_local; eassumption.
    - apply c_pc_local_literal; assumption.
    - apply c_ch_end.
    - eapply c_ch_cons; eassumption.
    - apply c_ch_odd; assumption.
    - apply c_ch_local_md5; eauto using chain_no_locator.
    - apply c_tn_ref; assumption.
    - apply c_tn_name; assumption.
    - apply c_tn_odd; assumption.
    - apply c_tn_template; assumption.
    - eapply c_qn_intro; eassumption.
    - eapply c_tp_intro; eassumption.
    - apply c_tb_base; assumption.
    - apply c_tb_unnamed; assumption.
    - eapply c_tb_again; eassumption.
    - apply c_ta_end.
    - apply c_ta_sep; assumption.
    - eapply c_ta_cons; eassumption.
    - apply c_ta_nothing; assumption.
    - eapply c_ta_auto_nothing; eassumption.
    - apply c_ta_md5; eauto using targs_no_locator.
    - eapply c_ta_auto_md5; eauto using targs_no_locator.
    - apply c_ta_reference_md5; eauto using targs_no_locator.
    - eapply c_ta_auto_reference_md5; eauto using targs_no_locator.
    - eapply c_tg_type; eassumption.
    - eapply c_tg_typeb; eassumption.
    - eapply c_tg_typec; eassumption.
    - eapply c_tg_alias; eassumption.
    - eapply c_tg_int; eassumption.
    - eapply c_tg_auto_int; eassumption.
    - eapply c_tg_pointer; eassumption.
    - eapply c_tg_auto_pointer; eassumption.
    - eapply c_tg_reference; eassumption.
    - eapply c_tg_member1; eassumption.
    - eapply c_tg_member2; eassumption.
    - eapply c_tg_member3; eassumption.
    - eapply c_tg_data2; eassumption.
    - eapply c_tg_data3; eassumption.
    - eapply c_tg_bare_member; eassumption.
    - eapply c_tg_member_md5; eassumption.
    - apply c_tg_literal; assumption.
    - eapply c_tg_auto; eassumption.
    - apply c_aa_type; assumption.
    - apply c_aa_typeb; assumption.
    - eapply c_aa_typec; eassumption.
    - apply c_aa_alias; assumption.
    - eapply c_aa_reference; eassumption.
    - eapply c_aa_member; eassumption.
    - eapply c_aa_bare_member; eassumption.
    - eapply c_aa_data; eassumption.
    - eapply c_aa_member_md5; eassumption.
    - apply c_aa_literal; assumption.
    - apply c_bo_prim.
    - apply c_bo_tag; assumption.
    - apply c_bo_pointer; assumption.
    - apply c_bo_reference; assumption.
    - apply c_bo_fn_pointer; assumption.
    - eapply c_bo_member_pointer; eassumption.
    - eapply c_bo_member_fn_pointer; eassumption.
    - apply c_bo_array; assumption.
    - apply c_bo_array_cv; assumption.
    - apply c_bo_fn; assumption.
    - apply c_bo_member_fn; assumption.
    - apply c_bo_custom; assumption.
    - apply c_mt_intro; assumption.
    - apply c_rt_plain; assumption.
    - apply c_rt_quals; assumption.
    - apply c_re_none.
    - apply c_re_some; assumption.
    - apply c_pa_ref; assumption.
    - apply c_pa_short; assumption.
    - apply c_pa_long; assumption.
    - apply c_ps_nil.
    - eapply c_ps_cons; eassumption.
    - apply c_pl_void.
    - apply c_pl_fixed; assumption.
    - apply c_pl_variadic; assumption.
    - eapply c_fn_intro; eassumption.
    - split; [apply c_us_ref; assumption|]. intros r. apply (usym_ordinary E G _ (IText x) G). apply us_ref; assumption.
    - split; [apply c_us_base; assumption|]. intros r. eapply (usym_ordinary E). apply us_base; eassumption.
    - split; [apply c_us_unnamed; assumption|]. intros r. eapply (usym_ordinary E empty_tab). apply us_unnamed; assumption.
    - split; [eapply c_us_template; eassumption|]. intros r. eapply (usym_ordinary E empty_tab). eapply us_template; eassumption.
    - match goal with H : _ /\ _ |- _ => destruct H end. assumption.
    - apply us_unnamed_at; assumption.
    - eapply c_va_plain; eassumption.
    - eapply c_va_pointer; eassumption.
    - eapply c_va_member_pointer; eassumption.
    - eapply c_fu_typed; eassumption.
    - apply c_fu_untyped.
    - match goal with H : _ /\ _ |- _ => destruct H end. eapply c_sy_variable; try eassumption. intros; match goal with H : forall r, ordinary _ |- _ => apply H end.
    - match goal with H : _ /\ _ |- _ => destruct H end. eapply c_sy_function; try eassumption. intros; match goal with H : forall r, ordinary _ |- _ => apply H end.
    - eapply c_sy_variable_R; eassumption.
    - eapply c_sy_function_R; eassumption.
    - apply c_sy_table; assumption.
    - eapply c_sy_table_for; try eassumption. intros r. eapply qname_head; eassumption.
    - apply c_sy_rtti; assumption.
    - apply c_sy_base_descriptor; assumption.
    - apply c_sy_vcall; assumption.
    - apply c_sy_guard; assumption.
    - match goal with H : _ /\ _ |- _ => destruct H end. eapply c_sy_dynamic; eassumption.
    - eapply c_sy_dynamic_variable; eassumption.
    - apply c_sy_md5; assumption.
  Qed.
End Trip.

(** Reading from the start state. *)
Lemma ctx_start E : ctx E [] [] [] [] empty_tab.
Proof. split; [split; [reflexivity|intros h n; destruct h; discriminate]|]. split; constructor. Qed.
Lemma parse_grammar E t x id G' rest : symbol E empty_tab t x id G' ->
  wp (okerr E (2 * length t)) (k_parse (knot_of E (S (length (t ++ rest)))))
    (fin E [] [] (2 * length t) rest G' (fun w' _ h => symR E x id w' h)) (at_ (t ++ rest) [] [] []).
Proof.
  intros H. pose proof (read_all E (2 * length t)) as R.
  do 21 apply proj2 in R. apply R in H. destruct H as [_ H]. eapply wp_mono; [eapply H; [rewrite app_length; lia|apply ctx_start|cbn; lia]|].
  cbn [length]. rewrite Nat.sub_0_r. auto.
Qed.

(** The grammar does not depend on the node budget. *)
Section Nodes.
  Variable E : env.
  Variable k : N.
  Let F := with_nodes E k.
  Lemma id_text_nodes i ss r x : id_text E i ss r x -> id_text F i ss r x.
  Proof. intros H. destruct H; [constructor|constructor|]. exact (it_conv F a ss r). Qed.
  Lemma grammar_nodes :
    (forall G t x G', piece E G t x G' -> piece F G t x G') /\
    (forall G t xs G', chain E G t xs G' -> chain F G t xs G') /\
    (forall G t x G', tname E G t x G' -> tname F G t x G') /\
    (forall G t x G', qname E G t x G' -> qname F G t x G') /\
    (forall t x, template E t x -> template F t x) /\
    (forall t i G', tbase E t i G' -> tbase F t i G') /\
    (forall G t xs G', targs E G t xs G' -> targs F G t xs G') /\
    (forall G t x G', targ E G t x G' -> targ F G t x G') /\
    (forall G t x G', auto_arg E G t x G' -> auto_arg F G t x G') /\
    (forall G t y G', body E G t y G' -> body F G t y G') /\
    (forall m G t y G', mtype E m G t y G' -> mtype F m G t y G') /\
    (forall G t y G', rtype E G t y G' -> rtype F G t y G') /\
    (forall G t y G', rett E G t y G' -> rett F G t y G') /\
    (forall G t y G', param E G t y G' -> param F G t y G') /\
    (forall G t ys G', params E G t ys G' -> params F G t ys G') /\
    (forall G t ps v G', plist E G t ps v G' -> plist F G t ps v G') /\
    (forall th G t y G', fn E th G t y G' -> fn F th G t y G') /\
    (forall G t i G', usym E G t i G' -> usym F G t i G') /\
    (forall G t i G', dsym E G t i G' -> dsym F G t i G') /\
    (forall G t a y G', variable E G t a y G' -> variable F G t a y G') /\
    (forall G t k a s G', function E G t k a s G' -> function F G t k a s G') /\
    (forall G t x id G', symbol E G t x id G' -> symbol F G t x id G').
  Proof.
    assert (Hs : forall y, show E y = show F y) by reflexivity.
    assert (Hv : forall a y x, show_variable E a y x = show_variable F a y x) by reflexivity.
    assert (Hf : forall k a s x, show_function E k a s x = show_function F k a s x) by reflexivity.
    assert (Ht : forall k a s, show_table E k a s = show_table F k a s) by reflexivity.
    assert (Hc : forall o, vcall_text E o = vcall_text F o) by reflexivity.
    pose proof id_text_nodes as Hi.
    apply (grammar_m E); intros; rewrite ?Hs, ?Hv, ?Hf, ?Ht, ?Hc; try solve [econstructor; eauto].
  Qed.
End Nodes.
(** Higher limits lose nothing. *)
Section Higher.
  Variable E : env.
  Variable k o : N.
  Hypothesis Ho : (e_out E <= o)%N.
  Let F := with_out (with_nodes E k) o.
  Lemma fits_higher x : fits E x -> fits F x.
  Proof. unfold fits, F. cbn [e_out with_out]. lia. Qed.
  Lemma literal_higher t x : literal (e_out E) t x -> literal (e_out F) t x.
  Proof. intros H. unfold F. cbn [e_out with_out]. destruct H; [apply li_narrow|apply li_wide]; try assumption; lia. Qed.
  Hint Resolve fits_higher literal_higher : core.
  Lemma id_text_higher i ss r x : id_text E i ss r x -> id_text F i ss r x.
  Proof. intros H. destruct H; [constructor|constructor|]. exact (it_conv F a ss r). Qed.
  Lemma grammar_higher :
    (forall G t x G', piece E G t x G' -> piece F G t x G') /\
    (forall G t xs G', chain E G t xs G' -> chain F G t xs G') /\
    (forall G t x G', tname E G t x G' -> tname F G t x G') /\
    (forall G t x G', qname E G t x G' -> qname F G t x G') /\
    (forall t x, template E t x -> template F t x) /\
    (forall t i G', tbase E t i G' -> tbase F t i G') /\
    (forall G t xs G', targs E G t xs G' -> targs F G t xs G') /\
    (forall G t x G', targ E G t x G' -> targ F G t x G') /\
    (forall G t x G', auto_arg E G t x G' -> auto_arg F G t x G') /\
    (forall G t y G', body E G t y G' -> body F G t y G') /\
    (forall m G t y G', mtype E m G t y G' -> mtype F m G t y G') /\
    (forall G t y G', rtype E G t y G' -> rtype F G t y G') /\
    (forall G t y G', rett E G t y G' -> rett F G t y G') /\
    (forall G t y G', param E G t y G' -> param F G t y G') /\
    (forall G t ys G', params E G t ys G' -> params F G t ys G') /\
    (forall G t ps v G', plist E G t ps v G' -> plist F G t ps v G') /\
    (forall th G t y G', fn E th G t y G' -> fn F th G t y G') /\
    (forall G t i G', usym E G t i G' -> usym F G t i G') /\
    (forall G t i G', dsym E G t i G' -> dsym F G t i G') /\
    (forall G t a y G', variable E G t a y G' -> variable F G t a y G') /\
    (forall G t k a s G', function E G t k a s G' -> function F G t k a s G') /\
    (forall G t x id G', symbol E G t x id G' -> symbol F G t x id G').
  Proof.
    assert (Hs : forall y, show E y = show F y) by reflexivity.
    assert (Hv : forall a y x, show_variable E a y x = show_variable F a y x) by reflexivity.
    assert (Hf : forall k a s x, show_function E k a s x = show_function F k a s x) by reflexivity.
    assert (Ht : forall k a s, show_table E k a s = show_table F k a s) by reflexivity.
    assert (Hc : forall o, vcall_text E o = vcall_text F o) by reflexivity.
    pose proof id_text_higher as Hi.
    apply (grammar_m E); intros; rewrite ?Hs, ?Hv, ?Hf, ?Ht, ?Hc; try solve [econstructor; eauto].
  Qed.
End Higher.

(** The result for a symbol with C++ text [x]: the text, if it fits below the output limit. *)
Definition outcome (x : str) : res str := if (N.of_nat (length (utf8 x)) <? 2 ^ 20)%N then Ok x else Err (Io OutOfMemory).
(** [txt], followed by anything, demangles to [x]; only a text of more than 1638 characters
    may exceed the node budget instead. *)
Definition demangles_to (E : env) (txt x : str) : Prop :=
  forall rest, rust_str (txt ++ rest) ->
    demangle E (txt ++ rest) = outcome x \/ (1638 < length txt /\ demangle E (txt ++ rest) = Err MaliciousInput).

(** From what the parser built to the outcome. *)
Lemma outcome_of E s h st w x : rust_str s -> parse (code_limits E) s = Ok (h, st) ->
  compat w (s_store st) -> dstr (code_limits E) (cnt w) w KSym h x -> demangle E s = outcome x.
Proof.
  intros Hs Hp Hc Hd. pose proof (output_size_bound E s) as Hb. unfold demangle, demangle_with, demangle_into_with in *. rewrite Hp in *. unfold outcome.
  destruct (output_den (code_limits E) w (s_store st) KSym h x (clear (mkBuf [] 0)) Hc Hd eq_refl) as [(b' & Ho & H1 & H2)|(b' & Ho & H1)]; rewrite Ho in *.
  - rewrite H1 in *. rewrite from_utf8_utf8 in * by exact H2. rewrite H1 in *. rewrite from_utf8_utf8 in * by exact H2.
    specialize (Hb x Hs eq_refl). apply N.ltb_lt in Hb. rewrite Hb. reflexivity.
  - cbn [e_out code_limits] in H1. change out_limit with (2 ^ 20)%N in H1. apply N.ltb_ge in H1. rewrite H1. reflexivity.
Qed.

(** The round trip. *)
Theorem symbol_demangles : forall (E : env) (txt x id : str) (G' : tab),
  symbol (code_limits E) empty_tab txt x id G' -> demangles_to E txt x.
Proof.
  intros E txt x id G' H rest Hr. pose proof (parse_grammar (code_limits E) txt x id G' rest H) as Hp. unfold wp in Hp.
  change (k_parse (knot_of (code_limits E) (S (length (txt ++ rest)))) (at_ (txt ++ rest) [] [] [])) with (parse (code_limits E) (txt ++ rest)) in Hp.
  destruct (parse (code_limits E) (txt ++ rest)) as [[h s]|e| |] eqn:He; try contradiction.
  - left. destruct Hp as (w & sg & f & n & -> & _ & _ & _ & (Hc & _) & Hd & _). eapply outcome_of; [exact Hr|exact He|exact Hc|exact Hd].
  - right. destruct Hp as [-> _]. split; [|unfold demangle, demangle_with, demangle_into_with; rewrite He; reflexivity].
    destruct (parse_nodes (code_limits E) (txt ++ rest)) as (k & r & _ & Hr1 & Hk).
    pose proof (Hk 2048%N) as H1. change (with_nodes (code_limits E) 2048) with (code_limits E) in H1. rewrite He in H1.
    set (F := with_nodes (code_limits E) (2 * N.of_nat (length txt))) in *.
    assert (HF : symbol F empty_tab txt x id G') by (pose proof (grammar_nodes (code_limits E) (2 * N.of_nat (length txt))) as Ht; do 21 apply proj2 in Ht; apply Ht; exact H).
    pose proof (parse_grammar F txt x id G' rest HF) as Hp. unfold wp in Hp.
    change (k_parse (knot_of F (S (length (txt ++ rest)))) (at_ (txt ++ rest) [] [] [])) with (parse F (txt ++ rest)) in Hp.
    destruct (parse F (txt ++ rest)) as [[h s]|e| |] eqn:HeF; try contradiction.
    + destruct Hp as (w & sg & f & n & -> & _). pose proof (nodes_per_character F _ _ _ HeF) as Hn. unfold at_, ms_new in Hn; cbn [s_store s_ms ms_str] in Hn.
      rewrite app_length in Hn. unfold F in HeF. rewrite Hk in HeF. destruct (N.leb_spec k (2 * N.of_nat (length txt))); [|discriminate].
      pose proof (Hr1 _ _ HeF) as Hks. cbn [s_store at_] in Hks. subst r. destruct (N.leb_spec k 2048); [discriminate|]. lia.
    + destruct Hp as [_ Hp]. unfold F in Hp. cbn [e_nodes with_nodes] in Hp. lia.
Qed.
Print Assumptions symbol_demangles.
