(** Special symbols and type-info names at the level of the API (C27, C28, C31). *)
From Verif Require Import Parser Api Utf8 Show Den Emit Grammar BadGrammar Lex Step Number Pend ReadAt Round RoundNames RoundTypes RoundBody RoundArgs RoundSyms RoundSpecials Safety Short Trip NameRefs NumArr Members Mangle Defects.

(** [txt] as a whole demangles to [x]; only a text of more than 1638 characters may exceed the
    node budget instead. *)
Definition demangles_exactly (E : env) (txt x : str) : Prop :=
  rust_str txt -> demangle E txt = outcome x \/ (1638 < length txt /\ demangle E txt = Err MaliciousInput).
(** [txt] with anything at all after it is rejected with [e]. *)
Definition rejects_longer (E : env) (txt : str) (e : error) : Prop :=
  forall rest, rest <> [] -> rust_str (txt ++ rest) ->
    demangle E (txt ++ rest) = Err e \/ (1024 < length txt /\ 1638 < length (txt ++ rest) /\ demangle E (txt ++ rest) = Err MaliciousInput).

(** Under any limits: the text is read with the denotation [x]. *)
Definition reads_as (F : env) (txt x : str) : Prop :=
  wp (okerr F (2 * length txt)) (k_parse (knot_of F (S (length txt))))
    (fun h s => exists w, compat w (s_store s) /\ dstr F (cnt w) w KSym h x) (at_ txt [] [] []).
Section Reads.
  Variable E' : env.
  Lemma all_rtype B G t y G' : rtype E' G t y G' -> P_rtype E' B G t y G'.
  Proof. pose proof (read_all E' B) as R. do 11 apply proj2 in R. apply proj1 in R. apply R. Qed.
  Lemma read_rtype B t y G' fu rest : rtype E' empty_tab t y G' -> length t <= fu -> 2 * length t <= B ->
    wp (okerr E' B) (k_type (knot_of E' fu) QResult) (fin E' [] [] (2 * length t) rest G' (fun w' _ h => dty E' (cnt w') w' h y)) (at_ (t ++ rest) [] [] []).
  Proof.
    intros H Hfu HB. destruct (all_rtype B _ _ _ _ H) as [_ Hr]. eapply wp_mono; [eapply (Hr fu rest [] []); [exact Hfu|apply ctx_start|cbn [length]; lia]|].
    intros h s HQ. cbn [length] in HQ. rewrite Nat.sub_0_r in HQ. apply fin_settle_type; [reflexivity|]. exact HQ.
  Qed.
  Definition descriptor_name : str := L "`RTTI Type Descriptor'".
  Lemma descriptor_head (Q : handle -> st -> Prop) e t fu : wp e (rtti_type_descriptor E' (knot_of E' fu)) Q (at_ t [] [] []) ->
    wp e (k_parse (knot_of E' (S fu))) Q (at_ (L "??_R0" ++ t) [] [] []).
  Proof.
    intros H. change (L "??_R0" ++ t) with (ch "?" :: L "?_R0" ++ t). eapply parse_special; [cbn; auto 20|]. exact H.
  Qed.
  Lemma typeinfo_reads t y G' : rtype E' empty_tab t y G' -> reads_as E' (L "." ++ t) (show_type_name E' y).
  Proof.
    intros H. unfold reads_as. cbn [knot_of k_parse]. unfold do_parse. eapply wp_step; [apply text_at|].
    change (starts_with (L ".") (L "." ++ t)) with true. cbv iota. unfold demangle_typeinfo_name. change (L "." ++ t) with (ch "." :: t).
    eapply wp_step; [apply expect_yes|]. rewrite <- (app_nil_r t) at 3.
    apply wp_bind. eapply wp_mono; [apply (read_rtype _ t y G' _ []); [exact H|len|len]|].
    intros h s (w & sg & f & n & -> & _ & _ & L1 & C1 & D1). eapply wp_step; [apply text_at|]. cbn [is_empty].
    eapply wp_new_known; [exact C1|len|]. intros C2 M2. eexists. split; [apply C2|].
    eapply more_DS; [exact M2|reflexivity|]. exists y. split; [exact D1|reflexivity].
  Qed.
  Lemma descriptor_reads t y G' : rtype E' empty_tab t y G' ->
    reads_as E' (L "??_R0" ++ t ++ L "@8") (show_variable E' None y descriptor_name).
  Proof.
    intros H. unfold reads_as. apply descriptor_head. unfold rtti_type_descriptor.
    apply wp_bind. eapply wp_mono; [apply (read_rtype _ t y G' _ (L "@8")); [exact H|len|len]|].
    intros h s (w & sg & f & n & -> & X1 & S1 & L1 & C1 & D1). rewrite <- (app_nil_r (L "@8")). eapply wp_step; [apply expects_yes|]. eapply wp_step; [apply text_at|]. cbn [is_empty].
    apply wp_bind. unfold synthesize_from_name. pose proof (ctx_len _ _ _ _ _ _ C1) as Hl.
    eapply (synth_at E' _ _ descriptor_name [] []); [reflexivity|exact C1|exact X1|exact S1|len|reflexivity|apply named_dsh; repeat constructor|].
    intros qn w2 sg2 X2 S2 L2 C2 N2. 
    eapply wp_mono; [eapply (close_at E' _ _ (show_variable E' None y descriptor_name) _ _ [] []); [reflexivity|exact C2|eapply ext_trans; eauto|eapply ext_trans; eauto|reflexivity|len|exact N2|reflexivity|reflexivity|]|].
    - intros w' Hs Hd. exists None, y, descriptor_name. split; [exact I|]. split; [eapply DT_sub; [exact Hs|]; eapply DT_sub; [apply ext_sub; exact X2|exact D1]|].
      split; [exact Hd|reflexivity].
    - intros h' s (w3 & sg3 & f3 & n3 & -> & _ & _ & _ & C3 & D3 & _). exists w3. split; [apply C3|exact D3].
  Qed.
  Lemma guard_reads thread c ss G1 (visible : bool) : chain E' empty_tab c ss G1 ->
    reads_as E' (guard_code thread ++ c ++ (if visible then L "5" else L "4IA")) (qualified (ss ++ [guard_text thread 0])).
  Proof.
    intros Hch. unfold reads_as.
    assert (Hsp : exists p kk, guard_code thread = ch "?" :: p /\ In (p, kk) special_table /\
      forall fu, special_body E' fu kk = demangle_local_static_guard E' (knot_of E' fu) thread).
    { destruct thread; [exists (L "?__J"), SLocalStaticThreadGuard|exists (L "?_B"), SLocalStaticGuard]; (split; [reflexivity|]); (split; [cbn; tauto|reflexivity]). }
    destruct Hsp as (p & kk & Hp & Hin & Hb).
    assert (Hgl : 4 <= length (guard_code thread)) by (destruct thread; cbn; lia).
    rewrite Hp in Hgl |- *. cbn [app]. eapply parse_special; [exact Hin|]. rewrite Hb. unfold demangle_local_static_guard.
    pose proof (read_all E' (2 * length (ch "?" :: p ++ c ++ (if visible then L "5" else L "4IA")))) as R. apply proj2, proj1 in R. apply R in Hch.
    eapply chain0_at; [exact Hch|len|apply ctx_start|len|]. intros id qn w1 sg1 f1 n1 X1 S1 L1 C1 R1.
    assert (Hv : forall A (kk : bool -> M A) e Q, wp e (kk visible) Q (at_ [] sg1 f1 n1) ->
      wp e (v4 <- eat_str (L "4IA") ;; visible <- (if v4 then ret false else v5 <- eat_char (ch "5") ;; if v5 then ret true else fail InvalidLocalStaticGuard) ;; kk visible) Q
        (at_ (if visible then L "5" else L "4IA") sg1 f1 n1)).
    { intros A k0 e Q0 H0. destruct visible.
      - eapply wp_step; [apply eats_no; reflexivity|]. cbv iota. change (L "5") with [ch "5"]. apply wp_bind.
        eapply wp_step; [apply eat_yes|]. apply wp_ret. exact H0.
      - rewrite <- (app_nil_r (L "4IA")) at 2. eapply wp_step; [apply eats_yes|]. eapply wp_step; [reflexivity|]. exact H0. }
    apply Hv. clear Hv. eapply wp_step; [apply text_at|]. cbn [is_empty]. eapply wp_step; [reflexivity|].
    eapply wp_mono; [eapply (close_at E' _ (NLsgVar qn visible) (qualified (ss ++ [guard_text thread 0])) (guard_text thread 0) ss [] []);
      [reflexivity|exact C1|exact X1|exact S1|reflexivity|cbn [length] in *; len|eapply chain0_name; [exact R1|reflexivity|reflexivity]|reflexivity|reflexivity|intros w' _ H; exact H]|].
    intros h' s (w3 & sg3 & f3 & n3 & -> & _ & _ & _ & C3 & D3 & _). exists w3. split; [apply C3|exact D3].
  Qed.
End Reads.

Section Whole.
  Variable E : env.
  Notation E' := (code_limits E).
  Lemma exactly_intro txt x : reads_as E' txt x -> demangles_exactly E txt x.
  Proof.
    intros Hp Hr. unfold reads_as, wp in Hp. change (k_parse (knot_of E' (S (length txt))) (at_ txt [] [] [])) with (parse E' txt) in Hp.
    destruct (parse E' txt) as [[h s]|e| |] eqn:He; try contradiction.
    - left. destruct Hp as (w & Hc & Hd). eapply outcome_of; [exact Hr|exact He|exact Hc|exact Hd].
    - right. destruct Hp as [-> Hp]. cbn [e_nodes code_limits] in Hp. change max_nodes with 2048%N in Hp. pose proof (short_never_malicious E txt) as Hsh.
      unfold demangle, demangle_with, demangle_into_with in *. rewrite He in *. split; [|reflexivity].
      destruct (Nat.le_gt_cases (length txt) 1638) as [Hs|Hs]; [|exact Hs]. exfalso. apply (Hsh Hs). reflexivity.
  Qed.
  Lemma longer_intro txt e :
    (forall rest, rest <> [] -> wp (fun e' => e' = e \/ okerr E' (2 * length txt) e') (k_parse (knot_of E' (S (length (txt ++ rest)))))
      (fun h s => False) (at_ (txt ++ rest) [] [] [])) ->
    rejects_longer E txt e.
  Proof.
    intros Hp rest Hn Hr. specialize (Hp rest Hn). unfold wp in Hp.
    change (k_parse (knot_of E' (S (length (txt ++ rest)))) (at_ (txt ++ rest) [] [] [])) with (parse E' (txt ++ rest)) in Hp.
    pose proof (short_never_malicious E (txt ++ rest)) as Hsh. unfold demangle, demangle_with, demangle_into_with in *.
    destruct (parse E' (txt ++ rest)) as [[h s]|e'| |] eqn:He; try contradiction. destruct Hp as [->|[-> Hp]]; [left; reflexivity|right].
    cbn [e_nodes code_limits] in Hp. change max_nodes with 2048%N in Hp. split; [lia|]. split; [|reflexivity].
    destruct (Nat.le_gt_cases (length (txt ++ rest)) 1638) as [Hs|Hs]; [|exact Hs]. exfalso. apply (Hsh Hs). reflexivity.
  Qed.
  Lemma wp_weaken {A} (P P' : error -> Prop) (m : M A) Q s : (forall e, P e -> P' e) -> wp P m Q s -> wp P' m Q s.
  Proof. intros H. unfold wp. destruct (m s) as [[? ?]| | |]; auto. Qed.

  (** ** Type-info names *)
  Lemma typeinfo_at t y G' : rtype E' empty_tab t y G' -> demangles_exactly E (L "." ++ t) (show_type_name E' y).
  Proof. intros H. apply exactly_intro. eapply typeinfo_reads. exact H. Qed.
  Lemma typeinfo_longer t y G' : rtype E' empty_tab t y G' -> rejects_longer E (L "." ++ t) InvalidTypeinfoName.
  Proof.
    intros H. apply longer_intro. intros rest Hr. rewrite <- app_assoc. cbn [knot_of k_parse]. unfold do_parse. eapply wp_step; [apply text_at|].
    change (starts_with (L ".") (L "." ++ t ++ rest)) with true. cbv iota. unfold demangle_typeinfo_name. change (L "." ++ t ++ rest) with (ch "." :: t ++ rest).
    eapply wp_step; [apply expect_yes|].
    apply wp_bind. eapply wp_mono; [eapply wp_weaken; [|apply (read_rtype E' (2 * length (L "." ++ t)) t y G' _ rest); [exact H|len|len]]|].
    { intros e He. right. exact He. }
    intros h s (w & sg & f & n & -> & _ & _ & L1 & C1 & D1). eapply wp_step; [apply text_at|]. destruct rest as [|c r]; [contradiction|]. cbn [is_empty].
    left. reflexivity.
  Qed.

  (** ** RTTI type descriptors *)
  Lemma descriptor_at t y G' : rtype E' empty_tab t y G' ->
    demangles_exactly E (L "??_R0" ++ t ++ L "@8") (show_variable E' None y descriptor_name).
  Proof. intros H. apply exactly_intro. eapply descriptor_reads. exact H. Qed.
  Lemma descriptor_longer t y G' : rtype E' empty_tab t y G' -> rejects_longer E (L "??_R0" ++ t ++ L "@8") InvalidSpecialIntrinsic.
  Proof.
    intros H. apply longer_intro. intros rest Hr. rewrite <- !app_assoc. apply (descriptor_head E'). unfold rtti_type_descriptor.
    apply wp_bind. eapply wp_mono; [eapply wp_weaken; [|apply (read_rtype E' (2 * length (L "??_R0" ++ t ++ L "@8")) t y G' _ (L "@8" ++ rest)); [exact H|len|len]]|].
    { intros e He. right. exact He. }
    intros h s (w & sg & f & n & -> & _ & _ & L1 & C1 & D1). eapply wp_step; [apply expects_yes|]. eapply wp_step; [apply text_at|].
    destruct rest as [|c r]; [contradiction|]. left. reflexivity.
  Qed.

  (** ** The guard of a local static without a number *)
  Lemma guard_at thread c ss G1 (visible : bool) : chain E' empty_tab c ss G1 ->
    demangles_exactly E (guard_code thread ++ c ++ (if visible then L "5" else L "4IA")) (qualified (ss ++ [guard_text thread 0])).
  Proof. intros H. apply exactly_intro. eapply guard_reads. exact H. Qed.
End Whole.

(** ** Theorems *)
Lemma names_qname E G x cs : Forall ident (x :: cs) -> exists G', qname E G (names_text (x :: cs) ++ L "@") (rev cs ++ [x]) G'.
Proof.
  intros H. inversion H as [|? ? H1 H2]; subst. eexists. cbn [names_text map concat]. rewrite <- app_assoc.
  apply (qn_intro E G (x ++ L "@") x (remember x G) _ (rev cs)); [apply tn_name; exact H1|].
  apply (chain_names E cs (remember x G) (L "@") []); [exact H2|apply ch_end].
Qed.

(** C28.  The name [x] in the scopes [cs], innermost first. *)
Theorem typeinfo_name : forall (E : env) (k : tag_kind) (x : str) (cs : list str),
  Forall ident (x :: cs) -> name_only E = false -> no_tag_specifier E = false ->
  let type := tag_text k ++ L " " ++ qualified (rev cs ++ [x]) in
  demangles_exactly E (L ".?A" ++ tag_code k ++ names_text (x :: cs) ++ L "@")
    (type ++ (if ends_word E type then L " " else []) ++ L "`RTTI Type Descriptor Name'").
Proof.
  intros E k x cs Hx Hn Ht type. destruct (names_qname (code_limits E) empty_tab x cs Hx) as (G' & Hq).
  pose proof (rt_quals (code_limits E) false false false empty_tab _ _ _ (bo_tag _ _ k _ _ _ Hq)) as Hr.
  pose proof (typeinfo_at E _ _ _ Hr) as H. 
  assert (Hs : show_type_name (code_limits E) (add_quals (cvq false false) (TTag Q_None k (rev cs ++ [x]))) =
    type ++ (if ends_word E type then L " " else []) ++ L "`RTTI Type Descriptor Name'").
  { unfold show_type_name. change (name_only (code_limits E)) with (name_only E). rewrite Hn. unfold show. cbn [pre post add_quals map_quals].
    change (no_tag_specifier (code_limits E)) with (no_tag_specifier E). change (name_only (code_limits E)) with (name_only E). rewrite Hn, Ht.
    unfold sp, type. rewrite app_nil_r. change (quals_after (code_limits E) _) with (@nil N). rewrite app_nil_r. cbn [negb andb opt]. rewrite <- !app_assoc. reflexivity. }
  rewrite Hs in H. exact H.
Qed.
(** The same for every type and all flags. *)
Theorem typeinfo_type : forall (E : env) (t : str) (y : ty) (G' : tab),
  rtype (code_limits E) empty_tab t y G' -> demangles_exactly E (L "." ++ t) (show_type_name E y).
Proof. intros. eapply typeinfo_at. eassumption. Qed.
(** C27, C28: nothing may follow. *)
Theorem typeinfo_trailing : forall (E : env) (t : str) (y : ty) (G' : tab),
  rtype (code_limits E) empty_tab t y G' -> rejects_longer E (L "." ++ t) InvalidTypeinfoName.
Proof. intros. eapply typeinfo_longer. eassumption. Qed.
Theorem typeinfo_name_trailing : forall (E : env) (k : tag_kind) (x : str) (cs : list str),
  Forall ident (x :: cs) -> rejects_longer E (L ".?A" ++ tag_code k ++ names_text (x :: cs) ++ L "@") InvalidTypeinfoName.
Proof.
  intros E k x cs Hx. destruct (names_qname (code_limits E) empty_tab x cs Hx) as (G' & Hq).
  pose proof (rt_quals (code_limits E) false false false empty_tab _ _ _ (bo_tag _ _ k _ _ _ Hq)) as Hr.
  exact (typeinfo_longer E _ _ _ Hr).
Qed.
(** RTTI type descriptors. *)
Theorem type_descriptor : forall (E : env) (t : str) (y : ty) (G' : tab),
  rtype (code_limits E) empty_tab t y G' ->
  demangles_exactly E (L "??_R0" ++ t ++ L "@8") (show_variable E None y (L "`RTTI Type Descriptor'")).
Proof. intros. eapply descriptor_at. eassumption. Qed.
Theorem type_descriptor_trailing : forall (E : env) (t : str) (y : ty) (G' : tab),
  rtype (code_limits E) empty_tab t y G' -> rejects_longer E (L "??_R0" ++ t ++ L "@8") InvalidSpecialIntrinsic.
Proof. intros. eapply descriptor_longer. eassumption. Qed.

(** C31: tables.  [const] and [volatile] in front, then the scopes and the table's name, then
    the class it is for. *)
Definition cv_words (c v : bool) : str := opt c (L "const ") ++ opt v (L "volatile ").
Lemma table_quals E c v : quals_before E (cvq c v) = cv_words c v.
Proof. destruct c, v; reflexivity. Qed.
Theorem table_symbol : forall (E : env) (code name : str) (cs : list str) (far : N) (member c v : bool),
  In (code, name) table_codes -> Forall ident cs -> In far (L "67") ->
  demangles_to E (L "??" ++ code ++ names_text cs ++ L "@" ++ [far; cv_code member c v] ++ L "@")
    (opt (negb (name_only E)) (cv_words c v) ++ qualified (rev cs ++ [name])).
Proof.
  intros E code name cs far m c v Hk Hc Hf.
  pose proof (sy_table (code_limits E) empty_tab code name _ _ _ far m c v Hk (names_chain _ cs Hc) Hf) as H. apply symbol_demangles in H.
  rewrite <- !app_assoc in H. unfold show_table in H. rewrite table_quals, app_nil_r in H. exact H.
Qed.
Theorem table_symbol_for : forall (E : env) (code name : str) (cs : list str) (far : N) (member c v : bool) (x : str) (ds : list str),
  In (code, name) table_codes -> Forall ident cs -> In far (L "67") -> Forall ident (x :: ds) ->
  demangles_to E (L "??" ++ code ++ names_text cs ++ L "@" ++ [far; cv_code member c v] ++ names_text (x :: ds) ++ L "@")
    (opt (negb (name_only E)) (cv_words c v) ++ qualified (rev cs ++ [name]) ++ L "{for `" ++ qualified (rev ds ++ [x]) ++ L "'}").
Proof.
  intros E code name cs far m c v x ds Hk Hc Hf Hx. destruct (names_qname (code_limits E) (after_names cs) x ds Hx) as (G' & Hq).
  pose proof (sy_table_for (code_limits E) empty_tab code name _ _ _ far m c v _ _ _ Hk (names_chain _ cs Hc) Hf Hq) as H. apply symbol_demangles in H.
  rewrite <- !app_assoc in H. unfold show_table in H. rewrite table_quals in H. exact H.
Qed.
(** RTTI data of a class, and its base class descriptors. *)
Theorem rtti_symbol : forall (E : env) (code name : str) (cs : list str),
  In (code, name) rtti_codes -> Forall ident cs ->
  demangles_to E (L "??" ++ code ++ names_text cs ++ L "@8") (qualified (rev cs ++ [name])).
Proof.
  intros E code name cs Hk Hc. pose proof (sy_rtti (code_limits E) empty_tab code name _ _ _ Hk (names_chain _ cs Hc)) as H. apply symbol_demangles in H.
  rewrite <- !app_assoc in H. exact H.
Qed.
Theorem base_descriptor_symbol : forall (E : env) (t1 t2 t3 t4 : str) (nv : N) (vbptr : Z) (vbt fl : N) (cs : list str),
  num_text t1 nv -> signed_number t2 vbptr -> num_text t3 vbt -> num_text t4 fl ->
  (nv < 2 ^ 32)%N -> (- 2 ^ 31 <= vbptr < 2 ^ 31)%Z -> (vbt < 2 ^ 32)%N -> (fl < 2 ^ 32)%N -> Forall ident cs ->
  demangles_to E (L "??_R1" ++ t1 ++ t2 ++ t3 ++ t4 ++ names_text cs ++ L "@8")
    (qualified (rev cs ++ [L "`RTTI Base Class Descriptor at (" ++ dec_N nv ++ L ", " ++ dec_Z vbptr ++ L ", " ++
      dec_N vbt ++ L ", " ++ dec_N fl ++ L ")'"])).
Proof.
  intros E t1 t2 t3 t4 nv vbptr vbt fl cs H1 H2 H3 H4 B1 B2 B3 B4 Hc.
  pose proof (sy_base_descriptor (code_limits E) empty_tab t1 nv t2 vbptr t3 vbt t4 fl _ _ _ H1 H2 H3 H4 B1 B2 B3 B4 (names_chain _ cs Hc)) as H. apply symbol_demangles in H.
  rewrite <- !app_assoc in H. exact H.
Qed.
(** Guards of local statics, with and without a scope index. *)
Theorem guard_symbol : forall (E : env) (thread visible : bool) (cs : list str) (t : str) (i : N),
  Forall ident cs -> num_text t i -> (i < 2 ^ 32)%N ->
  demangles_to E ((if thread then L "??__J" else L "??_B") ++ names_text cs ++ L "@" ++ (if visible then L "5" else L "4IA") ++ t)
    (qualified (rev cs ++ [(if thread then L "`local static thread guard'" else L "`local static guard'") ++
      (if (i =? 0)%N then [] else L "{" ++ dec_N i ++ L "}")])).
Proof.
  intros E thread visible cs t i Hc Hn Hi.
  pose proof (sy_guard (code_limits E) empty_tab thread _ _ _ visible t i (names_chain _ cs Hc) Hn Hi) as H. apply symbol_demangles in H.
  rewrite <- !app_assoc in H. unfold guard_text in H. replace (if (i =? 0)%N then [] else L "{" ++ dec_N i ++ L "}") with (opt (0 <? i)%N (L "{" ++ dec_N i ++ L "}")); [exact H|].
  destruct (N.eqb_spec i 0); [subst; reflexivity|]. replace (0 <? i)%N with true by (symmetry; apply N.ltb_lt; lia). reflexivity.
Qed.
Theorem guard_symbol_plain : forall (E : env) (thread visible : bool) (cs : list str),
  Forall ident cs ->
  demangles_exactly E ((if thread then L "??__J" else L "??_B") ++ names_text cs ++ L "@" ++ (if visible then L "5" else L "4IA"))
    (qualified (rev cs ++ [if thread then L "`local static thread guard'" else L "`local static guard'"])).
Proof.
  intros E thread visible cs Hc. pose proof (guard_at E thread _ _ _ visible (names_chain _ cs Hc)) as H.
  rewrite <- !app_assoc in H. unfold guard_text in H. rewrite app_nil_r in H. exact H.
Qed.
(** Thunks for virtual calls. *)
Theorem vcall_symbol : forall (E : env) (cs : list str) (t : str) (off : N) (l : N) (cc : option call_conv),
  Forall ident cs -> num_text t off -> cc_code l cc -> name_only E = false ->
  demangles_to E (L "??_9" ++ names_text cs ++ L "@$B" ++ t ++ L "A" ++ [l])
    (sp E (L "[thunk]: " ++ match cc with Some c => opt (show_cc E) (cc_text E c) | None => [] end) ++
     qualified (rev cs ++ [L "`vcall'{" ++ dec_N off ++ L ", {flat}}"])).
Proof.
  intros E cs t off l cc Hc Hn Hl Hno.
  pose proof (sy_vcall (code_limits E) empty_tab _ _ _ t off l cc (names_chain _ cs Hc) Hn Hl) as H. apply symbol_demangles in H.
  rewrite <- !app_assoc in H.
  assert (Ht : show_function E (FnClass None false false false) (VirtualCall cc) None (qualified (rev cs ++ [vcall_text E off])) =
    sp E (L "[thunk]: " ++ match cc with Some c => opt (show_cc E) (cc_text E c) | None => [] end) ++
    qualified (rev cs ++ [L "`vcall'{" ++ dec_N off ++ L ", {flat}}"])).
  { unfold show_function, vcall_text, show_access, show_member_type, untyped_pre. rewrite Hno. cbn [f_access f_static f_virtual f_externc is_thunk negb andb adjustment_text].
    rewrite !app_nil_r, !andb_true_r. destruct (no_access_specifier E), (no_member_type E); reflexivity. }
  rewrite <- Ht. exact H.
Qed.
(** The initializer ([dtor = false]) or destructor of a global [x] in the scopes [cs]. *)
Theorem dynamic_symbol : forall (E : env) (dtor : bool) (x : str) (cs : list str) (f : str) (k : fn_class) (a : adjustment) (sig : option ty) (G' : tab),
  Forall ident (x :: cs) -> function (code_limits E) (after_names (x :: cs)) f k a sig G' ->
  demangles_to E ((if dtor then L "??__F" else L "??__E") ++ names_text (x :: cs) ++ L "@" ++ f)
    (show_function E k a sig ((if dtor then L "`dynamic atexit destructor for '" else L "`dynamic initializer for '") ++ qualified (rev cs ++ [x]) ++ L "''")).
Proof.
  intros E dtor x cs f k a sig G' Hx Hf. inversion Hx as [|? ? H1 H2]; subst.
  assert (Hc : chain (code_limits E) (remember x empty_tab) (names_text cs ++ L "@") (rev cs) (after_names (x :: cs))).
  { pose proof (rem_all_spec (x :: cs) []) as Hr. change (rem_all cs (remember x empty_tab) = after_names (x :: cs)) in Hr. rewrite <- Hr.
    apply (chain_names (code_limits E) cs (remember x empty_tab) (L "@") []); [exact H2|apply ch_end]. }
  assert (Hq : first_is_not "?"%char (x ++ L "@")) by (intros r; destruct (ident_head x H1) as (c & r0 & -> & _ & Hc1 & _); cbn; intros Heq; injection Heq as Heq _; contradiction).
  pose proof (sy_dynamic (code_limits E) empty_tab dtor _ _ _ _ _ _ f k a sig G' x (us_base _ _ _ _ _ (ub_name empty_tab x H1)) Hq Hc Hf (it_text _ _ _ _)) as H.
  apply symbol_demangles in H. cbn [names_text map concat]. rewrite <- !app_assoc in *. unfold dynamic_text in H.
  assert (Ht : (if dtor then L "`dynamic atexit destructor for '" else L "`dynamic initializer for '") ++ qualified (rev cs ++ [x]) ++ L "''" =
    (if dtor then L "`dynamic atexit destructor for " else L "`dynamic initializer for ") ++ L "'" ++ qualified (rev cs ++ [x]) ++ L "''") by (destruct dtor; reflexivity).
  rewrite Ht. exact H.
Qed.

Print Assumptions typeinfo_name.
Print Assumptions typeinfo_type.
Print Assumptions typeinfo_trailing.
Print Assumptions typeinfo_name_trailing.
Print Assumptions type_descriptor.
Print Assumptions type_descriptor_trailing.
Print Assumptions table_symbol.
Print Assumptions table_symbol_for.
Print Assumptions rtti_symbol.
Print Assumptions base_descriptor_symbol.
Print Assumptions guard_symbol.
Print Assumptions guard_symbol_plain.
Print Assumptions vcall_symbol.
Print Assumptions dynamic_symbol.

(** Non-vacuity and the texts of concrete cases. *)
Example specials_case : Forall ident [L "C"; L "ns"] /\ Forall ident [L "B"] /\
  demangle (env_of 0) (L ".?AVC@ns@@") = Ok (L "class ns::C `RTTI Type Descriptor Name'") /\
  demangle (env_of 0) (L ".?AVC@ns@@H") = Err InvalidTypeinfoName /\
  demangle (env_of 0) (L "??_R0?AVC@ns@@@8") = Ok (L "class ns::C `RTTI Type Descriptor'") /\
  demangle (env_of 0) (L "??_R0?AVC@ns@@@8x") = Err InvalidSpecialIntrinsic /\
  demangle (env_of 0) (L "??_7C@ns@@6B@") = Ok (L "const ns::C::`vftable'") /\
  demangle (env_of 0) (L "??_R4C@ns@@6BB@@") = Ok (L "const ns::C::`RTTI Complete Object Locator'{for `B'}") /\
  demangle (env_of 0) (L "??_R3C@ns@@8") = Ok (L "ns::C::`RTTI Class Hierarchy Descriptor'") /\
  demangle (env_of 0) (L "??_R1A@?0A@EA@C@ns@@8") = Ok (L "ns::C::`RTTI Base Class Descriptor at (0, -1, 0, 64)'") /\
  demangle (env_of 0) (L "??_BC@ns@@52") = Ok (L "ns::C::`local static guard'{3}") /\
  demangle (env_of 0) (L "??_BC@ns@@5") = Ok (L "ns::C::`local static guard'") /\
  demangle (env_of 0) (L "??_9C@ns@@$BBA@AE") = Ok (L "[thunk]: __thiscall ns::C::`vcall'{16, {flat}}") /\
  demangle (env_of 0) (L "??__EC@ns@@YAXXZ") = Ok (L "void __cdecl `dynamic initializer for 'ns::C''(void)") /\
  demangle (env_of 0) (L "??__FC@ns@@3HA@YAXXZ") = Ok (L "void __cdecl `dynamic atexit destructor for `int ns::C''(void)").
Proof. split; [idents|]. split; [idents|]. vm_compute. repeat split. Qed.
