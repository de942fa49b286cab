(** Defects are reported: the parser's side of [BadGrammar].  Proof infrastructure for [Defects]. *)
From Verif Require Import Parser Api Utf8 Show Den Emit Grammar BadGrammar Lex Step Number Pend ReadAt Round RoundNames RoundTypes RoundBody RoundArgs RoundSyms Trip.

Scheme bad_piece_m := Minimality for bad_piece Sort Prop
  with bad_chain_m := Minimality for bad_chain Sort Prop
  with bad_tname_m := Minimality for bad_tname Sort Prop
  with bad_qname_m := Minimality for bad_qname Sort Prop
  with bad_inst_m := Minimality for bad_inst Sort Prop
  with bad_template_m := Minimality for bad_template Sort Prop
  with bad_targs_m := Minimality for bad_targs Sort Prop
  with bad_targ_m := Minimality for bad_targ Sort Prop
  with bad_body_m := Minimality for bad_body Sort Prop
  with bad_rett_m := Minimality for bad_rett Sort Prop
  with bad_params_m := Minimality for bad_params Sort Prop
  with bad_fn_m := Minimality for bad_fn Sort Prop
  with bad_usym_m := Minimality for bad_usym Sort Prop
  with bad_variable_m := Minimality for bad_variable Sort Prop
  with bad_function_m := Minimality for bad_function Sort Prop
  with bad_symbol_m := Minimality for bad_symbol Sort Prop.
Combined Scheme bad_grammar_m from bad_piece_m, bad_chain_m, bad_tname_m, bad_qname_m, bad_inst_m, bad_template_m, bad_targs_m, bad_targ_m,
  bad_body_m, bad_rett_m, bad_params_m, bad_fn_m, bad_usym_m, bad_variable_m, bad_function_m, bad_symbol_m.

Section Bad.
  Variable E : env.
  Variable B : nat.
  Notation okerr := (okerr E B).
  Notation ctx := (ctx E).
  Notation K := (knot_of E).
  Notation rd := (rd E B).
  Notation fin := (fin E).

  (** [m] fails on [s], with [e] unless the node budget is exceeded first. *)
  Definition fails (e : error) {A} (m : M A) (s : st) : Prop := wp (fun x => x = e \/ okerr x) m (fun _ _ => False) s.
  Lemma f_fail e A s : fails e (@fail A e) s.
  Proof. left. reflexivity. Qed.
  Lemma f_step e A C (m : M A) (k : A -> M C) s a s' : m s = Ok (a, s') -> fails e (k a) s' -> fails e (bind m k) s.
  Proof. apply wp_step. Qed.
  Lemma f_here e A C (m : M A) (k : A -> M C) s : fails e m s -> fails e (bind m k) s.
  Proof. unfold fails, wp, bind. destruct (m s) as [[a s']| | |]; tauto. Qed.
  Lemma f_after e A C (m : M A) (k : A -> M C) Q s : wp okerr m Q s -> (forall a s', Q a s' -> fails e (k a) s') -> fails e (bind m k) s.
  Proof. unfold fails, wp, bind. intros H HQ. destruct (m s) as [[a s']|x| |]; [apply (HQ a s' H)|right; exact H|exact H|exact H]. Qed.
  Lemma f_assoc e A C D (m : M A) (k : A -> M C) (g : C -> M D) s : fails e (bind m (fun x => bind (k x) g)) s -> fails e (bind (bind m k) g) s.
  Proof. unfold fails, wp, bind. destruct (m s) as [[a s']| | |]; auto. Qed.
  Lemma f_unassoc e A C D (m : M A) (k : A -> M C) (g : C -> M D) s : fails e (bind (bind m k) g) s -> fails e (bind m (fun x => bind (k x) g)) s.
  Proof. unfold fails, wp, bind. destruct (m s) as [[a s']| | |]; auto. Qed.
  Lemma f_eq e A (m m' : M A) s s' : m s = m' s' -> fails e m' s' -> fails e m s.
  Proof. unfold fails, wp. intros ->. auto. Qed.

  Definition bd (e : error) (t : str) (G : tab) {A} (m : nat -> M A) : Prop :=
    forall fu rest w sg f n, length t <= fu -> ctx w sg f n G -> length sg + 2 * length t <= B -> fails e (m fu) (at_ (t ++ rest) sg f n).

  Definition B_piece G t e := (exists c r, t = c :: r /\ (c =? ch "@")%N = false) /\ bd e t G (fun fu => demangle_name_scope_piece E (K fu)).
  Definition B_chain G t e := 1 <= length t /\ forall loop acc, length t <= loop -> bd e t G (fun fu => scope_loop E (K fu) loop acc).
  Definition B_tname G t e := 1 <= length t /\ bd e t G (fun fu => demangle_unqualified_type_name E (K fu) true).
  Definition B_qname G t e := 1 <= length t /\ bd e t G (fun fu => demangle_fully_qualified_type_name E (K fu)).
  Definition B_inst t e := (exists r, t = L "?$" ++ r) /\ forall nb G, bd e t G (fun fu => k_tinst (K fu) nb).
  Definition B_template t e := (exists r, t = L "?$" ++ r) /\ forall G, bd e t G (fun fu => k_tinst (K fu) NBB_Template).
  Definition B_targs G t e := 1 <= length t /\ forall loop acc, length t <= loop -> bd e t G (fun fu => targs_loop E (K fu) loop acc).
  Definition B_targ G t e :=
    (1 <= length t /\ forall r, starts (ch "@") (t ++ r) = false /\ forall p, In p targ_separators -> strip_prefix p (t ++ r) = None) /\
    bd e t G (fun fu => template_arg E (K fu)).
  Definition B_body G t e := (exists p r, t = p ++ r /\ In p heads) /\ bd e t G (fun fu => unq E (K (pred fu))).
  Definition B_rett G t e := 1 <= length t /\ bd e t G (fun fu => rett_m (K fu)).
  Definition B_params G t e := 1 <= length t /\ forall loop acc, length t <= loop -> bd e t G (fun fu => params_loop (K fu) loop acc).
  Definition B_fn (this : bool) G t e := bd e t G (fun fu => demangle_function_type E (K fu) this).
  Definition B_usym G t e := (1 <= length t /\ forall r, ordinary (t ++ r)) /\ bd e t G (fun fu => demangle_unqualified_symbol_name E (K fu) NBB_Simple).
  Definition B_variable G t e := forall qn, bd e t G (fun fu => demangle_encoded_symbol E (K fu) qn).
  Definition B_function G t e := forall qn, bd e t G (fun fu => demangle_encoded_symbol E (K fu) qn).
  Definition B_symbol G t e := (exists r, t = ch "?" :: r) /\ bd e t G (fun fu => k_parse (K fu)).

  (** ** Names *)
  Lemma ref_fails i w sg f n G r : i < 10 -> nth_error (fst G) i = None -> ctx w sg f n G ->
    fails InvalidBackRef demangle_back_ref_name (at_ (digit_char i :: r) sg f n).
  Proof.
    intros Hi Hx Hc. unfold demangle_back_ref_name. eapply f_step; [apply eatif_yes, digit_is; exact Hi|]. eapply f_step; [reflexivity|].
    eapply f_step; [apply get_at|]. change (s_names _) with n. rewrite digit_val. pose proof Hc as (_ & _ & Hn).
    assert (Hnone : nth_error n i = None) by (apply nth_error_None; rewrite (forall2_len _ _ _ Hn); apply nth_error_None; exact Hx).
    rewrite Hnone. apply f_fail.
  Qed.
  Lemma digit_first i r : i < 10 -> first_is is_digit ([digit_char i] ++ r) = true.
  Proof. apply digit_is. Qed.
  Lemma digit_not_at i : i < 10 -> (digit_char i =? ch "@")%N = false.
  Proof. intros Hi. unfold digit_char. change (ch "0") with 48%N. change (ch "@") with 64%N. apply N.eqb_neq. lia. Qed.

  Lemma b_pc_ref G t e : bad_ref G t e -> B_piece G t e.
  Proof.
    intros (i & Hi & Hx & -> & ->). split; [exists (digit_char i), []; split; [reflexivity|apply digit_not_at; exact Hi]|].
    intros fu rest w sg f n Hfu Hc HB. unfold demangle_name_scope_piece. eapply f_step; [apply text_at|]. rewrite digit_first by exact Hi.
    eapply ref_fails; eassumption.
  Qed.
  Lemma b_pc_template G t e : B_template t e -> B_piece G t e.
  Proof.
    intros [(r & ->) H]. split; [eexists _, _; split; reflexivity|]. intros fu rest w sg f n Hfu Hc HB. unfold demangle_name_scope_piece.
    eapply f_step; [apply text_at|]. change (first_is is_digit ((L "?$" ++ r) ++ rest)) with false.
    change (starts_with (L "?$") ((L "?$" ++ r) ++ rest)) with true. cbv iota. eapply H; eassumption.
  Qed.
  Lemma b_pc_local G nt v t e : scope_number nt v -> B_symbol G t e -> B_piece G (L "?" ++ nt ++ L "?" ++ t) e.
  Proof.
    intros Hn [(r0 & ->) H]. split; [eexists _, _; split; reflexivity|].
    intros fu rest w sg f n Hfu Hc HB. unfold demangle_name_scope_piece. eapply f_step; [apply text_at|].
    rewrite <- !app_assoc. set (t := ch "?" :: r0) in *.
    destruct (scope_pattern nt v (t ++ rest) Hn) as [Hp Hh]. rewrite Hp. pose proof (num_len _ _ (proj1 Hn)) as Hl.
    assert (Hx : first_is is_digit (L "?" ++ nt ++ L "?" ++ t ++ rest) = false) by reflexivity. rewrite Hx.
    assert (H2 : starts_with (L "?$") (L "?" ++ nt ++ L "?" ++ t ++ rest) = false /\ starts_with (L "?A") (L "?" ++ nt ++ L "?" ++ t ++ rest) = false).
    { destruct nt as [|c l]; [cbn in Hl; lia|]. unfold starts_with. change (L "?" ++ ?y) with (ch "?" :: y). cbn [app L list_ascii_of_string map strip_prefix].
      change (N_of_ascii "?") with (ch "?"). rewrite N.eqb_refl. change (N_of_ascii "$") with 36%N. change (N_of_ascii "A") with 65%N.
      assert (Hc36 : c <> 36%N /\ c <> 65%N).
      { destruct (Hh c l eq_refl) as [Hd|[->|Hd]].
        - apply digit_iff in Hd. change (ch "0") with 48%N in Hd. change (ch "9") with 57%N in Hd. lia.
        - split; discriminate.
        - unfold in_range in Hd. apply andb_true_iff in Hd. rewrite !N.leb_le in Hd. change (ch "B") with 66%N in Hd. lia. }
      destruct Hc36 as [Ha Hb]. apply N.eqb_neq in Ha, Hb. rewrite (N.eqb_sym 36), (N.eqb_sym 65), Ha, Hb. auto. }
    destruct H2 as [H2 H3]. rewrite H2, H3. unfold demangle_locally_scoped_name_piece.
    eapply f_step; [apply (expect_yes (ch "?"))|].
    eapply f_step; [apply (number_at nt v false); exists nt; split; [apply Hn|reflexivity]|]. cbv iota beta.
    eapply f_step; [apply (expect_yes (ch "?"))|]. apply f_here. eapply H; [len|exact Hc|len].
  Qed.
  Lemma head_len (t : str) (a : N) : (exists c r, t = c :: r /\ (c =? a)%N = false) -> 1 <= length t.
  Proof. intros (c & r & -> & _). cbn. lia. Qed.
  Lemma b_ch_here G t e : B_piece G t e -> B_chain G t e.
  Proof.
    intros [Hh H]. pose proof (head_len _ _ Hh) as Hl. destruct Hh as (c & r & Ht & Hcc). split; [exact Hl|].
    intros loop acc Hlo fu rest w sg f n Hfu Hc HB. destruct loop as [|loop]; [lia|]. cbn [scope_loop].
    eapply f_step; [apply eat_no; rewrite Ht; exact Hcc|]. eapply f_step; [apply text_at|].
    assert (He : is_empty (t ++ rest) = false) by (rewrite Ht; reflexivity). rewrite He. apply f_here. eapply H; eassumption.
  Qed.
  Lemma b_ch_later G t x G1 t' e : P_piece E B G t x G1 -> B_chain G1 t' e -> B_chain G (t ++ t') e.
  Proof.
    intros [(c & r & Ht & Hcc) H1] [Hl' H2]. assert (Hlt : 1 <= length t) by (rewrite Ht; cbn; lia). split; [len|].
    intros loop acc Hl fu rest w sg f n Hfu Hc HB. destruct loop as [|loop]; [len|]. cbn [scope_loop]. rewrite <- app_assoc.
    eapply f_step; [apply eat_no; rewrite Ht; exact Hcc|]. eapply f_step; [apply text_at|].
    assert (He : is_empty (t ++ t' ++ rest) = false) by (rewrite Ht; reflexivity). rewrite He.
    eapply f_after; [eapply H1; [len|exact Hc|len]|]. intros h s (w1 & sg1 & f1 & n1 & -> & X1 & S1 & L1 & C1 & R1).
    eapply (H2 loop (h :: acc)); [len|len|exact C1|len].
  Qed.
  Lemma chain_fails id G t e : B_chain G t e -> bd e t G (fun fu => demangle_name_scope_chain E (K fu) id).
  Proof.
    intros [Hl H] fu rest w sg f n Hfu Hc HB. unfold demangle_name_scope_chain. eapply f_step; [apply text_at|].
    apply f_here. eapply H; [len|exact Hfu|exact Hc|exact HB].
  Qed.
  Lemma b_tn_ref G t e : bad_ref G t e -> B_tname G t e.
  Proof.
    intros (i & Hi & Hx & -> & ->). split; [len|]. intros fu rest w sg f n Hfu Hc HB. unfold demangle_unqualified_type_name.
    eapply f_step; [apply text_at|]. rewrite digit_first by exact Hi. eapply ref_fails; eassumption.
  Qed.
  Lemma b_tn_template G t e : B_template t e -> B_tname G t e.
  Proof.
    intros [(r & ->) H]. split; [len|]. intros fu rest w sg f n Hfu Hc HB. unfold demangle_unqualified_type_name. eapply f_step; [apply text_at|].
    change (first_is is_digit ((L "?$" ++ r) ++ rest)) with false.
    change (starts_with (L "?$") ((L "?$" ++ r) ++ rest)) with true. cbv iota. eapply H; eassumption.
  Qed.
  Lemma b_qn_name G t e : B_tname G t e -> B_qname G t e.
  Proof.
    intros [Hl H]. split; [exact Hl|]. intros fu rest w sg f n Hfu Hc HB. unfold demangle_fully_qualified_type_name. apply f_here. eapply H; eassumption.
  Qed.
  Lemma b_qn_scope G t x G1 t' e : P_tname E B G t x G1 -> B_chain G1 t' e -> B_qname G (t ++ t') e.
  Proof.
    intros [Hl H1] H2. split; [len|]. intros fu rest w sg f n Hfu Hc HB. unfold demangle_fully_qualified_type_name. rewrite <- app_assoc.
    eapply f_after; [eapply H1; [len|exact Hc|len]|]. intros id s (w1 & sg1 & f1 & n1 & -> & X1 & S1 & L1 & C1 & R1).
    eapply (chain_fails id); [exact H2|len|exact C1|len].
  Qed.

  (** ** Templates *)
  Lemma inst_fails (t : str) e nb fu rest w sg f n G : ctx w sg f n G ->
    (ctx w sg [] [] empty_tab -> fails e (tinst_body E (K fu)) (at_ (t ++ rest) sg [] [])) ->
    fails e (demangle_template_instantiation_name E (K fu) nb) (at_ (L "?$" ++ t ++ rest) sg f n).
  Proof.
    intros Hc H. unfold demangle_template_instantiation_name. eapply f_step; [apply expects_yes|]. eapply f_step; [apply get_at|].
    eapply (f_step _ _ _ (fun s => Ok (tt, set_names [] (set_fps [] s)))); [reflexivity|].
    change (set_names [] (set_fps [] (at_ (t ++ rest) sg f n))) with (at_ (t ++ rest) sg [] []).
    specialize (H (ctx_empty _ _ _ _ _ _ Hc)). clear Hc. revert H. unfold tinst_body. unfold fails, wp, bind.
    destruct (demangle_unqualified_symbol_name E (K fu) NBB_Simple _) as [[id s]| | |]; auto.
    destruct (demangle_template_parameter_list E (K fu) s) as [[tp s']| | |]; auto.
    destruct (modify KIdent id (set_template_params tp) s') as [[[] s'']| | |]; auto. intros [].
  Qed.
  Lemma b_ti_ref i : i < 10 -> B_inst (L "?$" ++ [digit_char i]) InvalidBackRef.
  Proof.
    intros Hi. split; [eexists; reflexivity|]. intros nb G fu rest w sg f n Hfu Hc HB. destruct fu as [|fu]; [len|]. cbn [knot_of k_tinst].
    rewrite <- app_assoc. eapply inst_fails; [exact Hc|]. intros Hc'. unfold tinst_body. apply f_here. unfold demangle_unqualified_symbol_name.
    eapply f_step; [apply text_at|]. rewrite digit_first by exact Hi. eapply ref_fails; [exact Hi| |exact Hc']. destruct i; reflexivity.
  Qed.
  Lemma b_ti_args b i G1 a e : ubase empty_tab b i G1 -> B_targs G1 a e -> B_inst (L "?$" ++ b ++ a) e.
  Proof.
    intros Hb [Hla Ha]. split; [eexists; reflexivity|]. intros nb G fu rest w sg f n Hfu Hc HB. destruct fu as [|fu]; [len|]. cbn [knot_of k_tinst].
    destruct (ubase_at E B _ _ _ _ Hb) as [Hlb Hub].
    rewrite <- !app_assoc. rewrite (app_assoc b a rest). eapply inst_fails; [exact Hc|]. intros Hc'. rewrite <- app_assoc. unfold tinst_body.
    eapply f_after; [eapply Hub; [len|exact Hc'|len]|]. intros id s (w1 & sg1 & f1 & n1 & -> & X1 & S1 & L1 & C1 & _).
    apply f_here. unfold demangle_template_parameter_list. eapply f_step; [apply text_at|]. apply f_here. eapply Ha; [len|len|exact C1|len].
  Qed.
  Lemma b_tp_inst t e : B_inst t e -> B_template t e.
  Proof. intros [Hh H]. split; [exact Hh|]. intros G. apply H. Qed.
  (** The name of an instantiation is checked after it has been read. *)
  Lemma inst_simple fu s : demangle_template_instantiation_name E (K fu) NBB_Template s =
    bind (demangle_template_instantiation_name E (K fu) NBB_Simple) (fun id => n <- res_ KIdent id ;;
      if is_conv_or_structor n then fail InvalidTemplateInstantiationName else memorize_identifier E id ;;; ret id) s.
  Proof.
    unfold demangle_template_instantiation_name. unfold bind.
    destruct (expect_str (L "?$") _ s) as [[[] s0]| | |]; auto. unfold get.
    cbn [nbb_template NBB_Simple NBB_Template].
    destruct (demangle_unqualified_symbol_name E (K fu) NBB_Simple _) as [[id s1]| | |]; auto.
    destruct (demangle_template_parameter_list E (K fu) s1) as [[tp s2]| | |]; auto.
    destruct (modify KIdent id (set_template_params tp) s2) as [[[] s3]| | |]; auto.
  Qed.
  Lemma b_tp_unnamed b i G1 a xs G2 : (forall x, i <> IText x) -> ubase empty_tab b i G1 -> P_targs E B G1 a xs G2 ->
    B_template (L "?$" ++ b ++ a) InvalidTemplateInstantiationName.
  Proof.
    intros Hi Hb Ha. split; [eexists; reflexivity|]. intros G fu rest w sg f n Hfu Hc HB. destruct fu as [|fu]; [len|]. cbn [knot_of k_tinst].
    eapply f_eq; [apply inst_simple|]. rewrite <- !app_assoc.
    eapply (f_after _ _ _ _ _ (fun h s => exists nd sg', s = at_ rest sg' f n /\ nth_error sg' h = Some nd /\ is_ident nd = true /\ is_conv_or_structor nd = true)).
    - eapply (tinst_at E B _ _ _ _ _ _ (c_tb_base E B _ _ _ Hb) Ha); [len|exact Hc|len|]. intros h w1 sg1 X1 S1 L1 C1 (nd & tp0 & F1 & _ & I1).
      cbn [nbb_template NBB_Simple]. apply wp_ret. exists nd, sg1. split; [reflexivity|]. split; [apply F1|].
      destruct i as [x|d x|x]; [exfalso; eapply Hi; reflexivity|destruct I1 as (tp & -> & _)|destruct I1 as (tp & -> & _)]; split; reflexivity.
    - intros h s (nd & sg' & -> & H1 & H2 & H3).
      eapply f_step; [|cbv beta; rewrite H3; apply f_fail]. unfold res_, resolve. change (s_store (at_ rest sg' f n)) with sg'. rewrite H1. unfold hkind. rewrite H2. reflexivity.
  Qed.
  Lemma b_ta_here G t e : B_targ G t e -> B_targs G t e.
  Proof.
    intros [(Hlt & Hh) H1]. split; [exact Hlt|]. intros loop acc Hlo fu rest w sg f n Hfu Hc HB.
    destruct loop as [|loop]; [lia|]. cbn [targs_loop]. destruct (Hh rest) as [Hh1 Hh2].
    eapply f_step; [apply eat_no; exact Hh1|]. eapply f_step; [apply eat_first_none; exact Hh2|]. eapply f_step; [apply text_at|].
    assert (He : is_empty (t ++ rest) = false) by (destruct t; [cbn in Hlt; lia|reflexivity]). rewrite He.
    apply f_here. eapply H1; eassumption.
  Qed.
  Lemma b_ta_sep G s t e : In s targ_separators -> B_targs G t e -> B_targs G (s ++ t) e.
  Proof.
    intros Hs [Hl H]. split; [len|]. intros loop acc Hlo fu rest w sg f n Hfu Hc HB.
    assert (Hsl : 2 <= length s /\ forall r, starts (ch "@") (s ++ r) = false).
    { cbn in Hs. destruct Hs as [<-|[<-|[<-|[<-|[]]]]]; (split; [cbn; lia|reflexivity]). }
    destruct loop as [|loop]; [len|]. cbn [targs_loop]. rewrite <- app_assoc.
    eapply f_step; [apply eat_no; apply Hsl|]. eapply f_step; [apply eat_first_sep; exact Hs|].
    eapply (H loop acc); [len|len|exact Hc|len].
  Qed.
  Lemma b_ta_later G t x G1 t' e : P_targ E B G t x G1 -> B_targs G1 t' e -> B_targs G (t ++ t') e.
  Proof.
    intros [(Hlt & Hh) H1] [Hl' H2]. split; [len|]. intros loop acc Hlo fu rest w sg f n Hfu Hc HB.
    destruct loop as [|loop]; [len|]. cbn [targs_loop]. rewrite <- app_assoc. destruct (Hh (t' ++ rest)) as [Hh1 Hh2].
    eapply f_step; [apply eat_no; exact Hh1|]. eapply f_step; [apply eat_first_none; exact Hh2|]. eapply f_step; [apply text_at|].
    assert (He : is_empty (t ++ t' ++ rest) = false) by (destruct t; [cbn in Hlt; lia|reflexivity]). rewrite He.
    eapply f_after; [eapply H1; [len|exact Hc|len]|]. intros h s (w1 & sg1 & f1 & n1 & -> & X1 & S1 & L1 & C1 & R1).
    eapply (H2 loop (h :: acc)); [len|len|exact C1|len].
  Qed.

  (** ** Types and template arguments *)
  Lemma type_fails m q pre G t e : (forall r sg f n, type_quals m (at_ (pre ++ t ++ r) sg f n) = Ok (q, at_ (t ++ r) sg f n)) ->
    B_body G t e -> bd e (pre ++ t) G (fun fu => k_type (K fu) m).
  Proof.
    intros Hq [Hh H] fu rest w sg f n Hfu Hc HB. pose proof (body_len t Hh) as Hl. destruct fu as [|fu]; [len|]. cbn [knot_of k_type].
    rewrite <- app_assoc. eapply f_eq; [apply demangle_type_eq; [apply Hq|cbn; apply body_nonempty; exact Hh]|].
    apply f_here. eapply (H (S fu)); [len|exact Hc|len].
  Qed.
  Lemma drop_fails G t e : B_body G t e -> bd e t G (fun fu => k_type (K fu) QDrop).
  Proof. intros H. apply (type_fails QDrop Q_None []); [reflexivity|exact H]. Qed.
  Lemma mangle_fails m c v G t e : B_body G t e -> bd e (cv_code m c v :: t) G (fun fu => k_type (K fu) QMangle).
  Proof.
    intros H. apply (type_fails QMangle (cvq c v) [cv_code m c v]); [|exact H].
    intros r sg f n. cbn [type_quals app]. rewrite (bind_eq _ _ _ _ _ (quals_at _ _ _ _ _ _ _)). reflexivity.
  Qed.
  Ltac marked := apply targ_marked; [intros ?r; split; [reflexivity|apply seps; reflexivity]|cbn; lia].
  Lemma b_tg_type G t e : B_body G t e -> B_targ G t e.
  Proof.
    intros H. pose proof H as [Hh _]. split.
    - split; [eapply body_len; exact Hh|]. intros r. split; [apply heads_at; exact Hh|]. apply seps; (apply heads_strip; [exact Hh|not_heads]).
    - intros fu rest w sg f n Hfu Hc HB. destruct (body_skips t Hh rest) as (H1 & H2 & H3 & H4 & H5 & H6 & H7 & H8). unfold template_arg.
      eapply f_step; [apply eats_no; exact H1|]. cbv iota. eapply f_step; [reflexivity|].
      eapply f_step; [apply eats_no; exact H2|]. cbv iota. eapply f_step; [apply eats_no; exact H3|]. cbv iota.
      eapply f_step; [apply eats_no; exact H4|]. cbv iota. eapply f_step; [apply eat_first_none; exact H5|]. cbv iota.
      eapply f_step; [apply text_at|]. rewrite H6. eapply f_step; [apply eat_first_none; exact H7|]. cbv iota.
      eapply f_step; [apply eats_no; exact H8|]. cbv iota. eapply (drop_fails _ _ _ H); eassumption.
  Qed.
  Lemma b_tg_typeb G t e : B_body G t e -> B_targ G (L "$$B" ++ t) e.
  Proof.
    intros H. split; [marked|]. intros fu rest w sg f n Hfu Hc HB. unfold template_arg. rewrite <- app_assoc.
    eapply f_step; [apply eats_no; reflexivity|]. cbv iota. eapply f_step; [reflexivity|].
    eapply f_step; [apply eats_no; reflexivity|]. cbv iota. eapply f_step; [apply eats_yes|]. cbv iota.
    eapply (drop_fails _ _ _ H); [len|exact Hc|len].
  Qed.
  Lemma b_tg_typec m c v G t e : B_body G t e -> B_targ G (L "$$C" ++ cv_code m c v :: t) e.
  Proof.
    intros H. split; [marked|]. intros fu rest w sg f n Hfu Hc HB. unfold template_arg. rewrite <- app_assoc.
    eapply f_step; [apply eats_no; reflexivity|]. cbv iota. eapply f_step; [reflexivity|].
    eapply f_step; [apply eats_no; reflexivity|]. cbv iota. eapply f_step; [apply eats_no; reflexivity|]. cbv iota.
    eapply f_step; [apply eats_yes|]. cbv iota. eapply (mangle_fails m c v _ _ _ H); [len|exact Hc|len].
  Qed.
  Lemma b_tg_alias G t e : B_qname G t e -> B_targ G (L "$$Y" ++ t) e.
  Proof.
    intros [_ H]. split; [marked|]. intros fu rest w sg f n Hfu Hc HB. unfold template_arg. rewrite <- app_assoc.
    eapply f_step; [apply eats_no; reflexivity|]. cbv iota. eapply f_step; [reflexivity|].
    eapply f_step; [apply eats_yes|]. cbv iota. eapply H; [len|exact Hc|len].
  Qed.
  Lemma b_tg_auto G t e : B_body G t e -> B_targ G (L "$M" ++ t) e.
  Proof.
    intros H. split; [marked|]. intros fu rest w sg f n Hfu Hc HB. unfold template_arg. rewrite <- app_assoc.
    eapply f_step; [apply eats_yes|]. cbv iota. apply f_here. apply f_here. eapply (drop_fails _ _ _ H); [len|exact Hc|len].
  Qed.
  Lemma symbol_fails G t e fu rest w sg f n : B_symbol G t e -> length t <= fu -> ctx w sg f n G -> length sg + 2 * length t <= B ->
    fails e (template_symbol E (K fu)) (at_ (t ++ rest) sg f n).
  Proof.
    intros [(r0 & Ht) H] Hfu Hc HB. unfold template_symbol. eapply f_step; [apply text_at|].
    assert (H1 : starts_with (L "?") (t ++ rest) = true) by (rewrite Ht; reflexivity). rewrite H1.
    apply f_here. eapply H; eassumption.
  Qed.
  Lemma b_tg_auto_pointer G tt y G1 t e : P_body E B G tt y G1 -> B_symbol G1 t e -> B_targ G (L "$M" ++ tt ++ L "1" ++ t) e.
  Proof.
    intros Hb H. split; [marked|]. intros fu rest w sg f n Hfu Hc HB. unfold template_arg. rewrite <- !app_assoc.
    eapply f_step; [apply eats_yes|]. cbv iota.
    apply (f_assoc _ _ _ _ (k_type (K fu) QDrop)).
    eapply f_after; [eapply (drop_known _ _ _ _ _ _ Hb); [len|exact Hc|len]|]. intros h s (w1 & sg1 & f1 & n1 & -> & X1 & S1 & L1 & C1 & R1).
    eapply f_step; [reflexivity|].
    do 3 (eapply f_step; [apply eats_no; reflexivity|]; cbv iota).
    eapply f_step; [apply (eat_first_at (L "1") []); intros ? []|]. cbv iota. apply f_here.
    eapply symbol_fails; [exact H|len|exact C1|len].
  Qed.
  Lemma b_tg_pointer m G t e : In m [L "$1"; L "$H"; L "$I"; L "$J"] -> B_symbol G t e -> B_targ G (m ++ t) e.
  Proof.
    intros Hm H.
    assert (Hm1 : forall r, starts (ch "@") (m ++ r) = false /\ (forall p, In p targ_separators -> strip_prefix p (m ++ r) = None) /\
      strip_prefix (L "$M") (m ++ r) = None /\ strip_prefix (L "$$Y") (m ++ r) = None /\ strip_prefix (L "$$B") (m ++ r) = None /\
      strip_prefix (L "$$C") (m ++ r) = None /\ length m = 2 /\
      forall sg f n, eat_first [L "$1"; L "$H"; L "$I"; L "$J"] (at_ (m ++ r) sg f n) = Ok (Some m, at_ r sg f n)).
    { intros r. destruct Hm as [<-|[<-|[<-|[<-|[]]]]]; (split; [reflexivity|]); (split; [apply seps; reflexivity|]);
        repeat (split; [reflexivity|]); intros sg f n; cbn; rewrite ?Nat.sub_0_r; reflexivity. }
    split; [apply targ_marked; [intros r; split; apply Hm1|destruct (Hm1 []) as (_ & _ & _ & _ & _ & _ & Hl & _); lia]|].
    intros fu rest w sg f n Hfu Hc HB. unfold template_arg. rewrite <- app_assoc.
    destruct (Hm1 (t ++ rest)) as (_ & _ & M1 & M2 & M3 & M4 & M5 & M6).
    eapply f_step; [apply eats_no; exact M1|]. cbv iota. eapply f_step; [reflexivity|].
    eapply f_step; [apply eats_no; exact M2|]. cbv iota. eapply f_step; [apply eats_no; exact M3|]. cbv iota.
    eapply f_step; [apply eats_no; exact M4|]. cbv iota. eapply f_step; [apply M6|]. cbv iota. apply f_here.
    eapply symbol_fails; [exact H|len|exact Hc|len].
  Qed.
  Lemma b_tg_reference G t e : B_symbol G t e -> B_targ G (L "$E" ++ t) e.
  Proof.
    intros [(r0 & Ht) H]. split; [marked|]. intros fu rest w sg f n Hfu Hc HB. unfold template_arg. rewrite <- app_assoc.
    eapply f_step; [apply eats_no; reflexivity|]. cbv iota. eapply f_step; [reflexivity|].
    do 3 (eapply f_step; [apply eats_no; reflexivity|]; cbv iota).
    eapply f_step; [apply eat_first_none; intros p [<-|[<-|[<-|[<-|[]]]]]; reflexivity|]. cbv iota.
    eapply f_step; [apply text_at|]. assert (H1 : starts_with (L "$E?") (L "$E" ++ t ++ rest) = true) by (rewrite Ht; reflexivity). rewrite H1.
    eapply f_step; [apply expects_yes|]. apply f_here. eapply H; [len|exact Hc|len].
  Qed.

  Lemma b_bo_tag G k t e : B_qname G t e -> B_body G (tag_code k ++ t) e.
  Proof.
    intros [Hl H]. split.
    { destruct k; [exists (L "V"), t|exists (L "U"), t|exists (L "T"), t|exists (L "W"), (ch "4" :: t)];
        (split; [reflexivity|unfold heads; cbn [map In]; tauto]). }
    intros fu rest w sg f n Hfu Hc HB. rewrite <- app_assoc. unfold unq. eapply f_step; [apply text_at|].
    assert (H1 : is_tag_type (tag_code k ++ t ++ rest) = true) by (destruct k; reflexivity). rewrite H1. unfold demangle_class_type.
    assert (Htl : length (tag_code k) = 1 \/ length (tag_code k) = 2) by (destruct k; cbn; lia). rewrite app_length in Hfu, HB.
    assert (Hq : fails e (qn <- demangle_fully_qualified_type_name E (K (pred fu)) ;; intern E (NTag Q_None qn k)) (at_ (t ++ rest) sg f n)).
    { apply f_here. eapply H; [lia|exact Hc|lia]. }
    destruct k.
    - eapply f_step; [apply (next_at _ (ch "V"))|]. eapply f_step; [reflexivity|]. exact Hq.
    - eapply f_step; [apply (next_at _ (ch "U"))|]. eapply f_step; [reflexivity|]. exact Hq.
    - eapply f_step; [apply (next_at _ (ch "T"))|]. eapply f_step; [reflexivity|]. exact Hq.
    - eapply f_step; [apply (next_at _ (ch "W"))|]. eapply f_step; [|exact Hq]. cbn [N.eqb].
      change ((ch "W" =? ch "T")%N) with false. change ((ch "W" =? ch "U")%N) with false. change ((ch "W" =? ch "V")%N) with false.
      change ((ch "W" =? ch "W")%N) with true. cbv iota. rewrite (bind_eq _ _ _ _ _ (eat_yes (ch "4") _ _ _ _)). reflexivity.
  Qed.
  Lemma b_bo_pointer G pt q a p r u c v t e : pointer_code pt q a -> B_body G t e ->
      B_body G (pt ++ ext_code p r u ++ cv_code false c v :: t) e.
  Proof.
    intros Hp H. split; [eapply ptr_head; exact Hp|]. intros fu rest w sg f n Hfu Hc HB. rewrite <- !app_assoc. cbn [app].
    destruct (plain_pointer pt q a p r u c v (t ++ rest) Hp) as (H1 & H2 & H3 & H4).
    unfold unq. eapply f_step; [apply text_at|]. rewrite H1, H2, H3. unfold demangle_pointer_type.
    eapply f_step; [apply pcv_at; exact Hp|]. cbv iota beta. eapply f_step; [apply eat_no; exact H4|]. cbv iota.
    apply f_here. eapply f_step; [apply ext_at; apply cv_no_ext|].
    assert (Hpl : 1 <= length pt) by (destruct (pointer_at _ _ _ Hp); lia).
    apply f_here. eapply (mangle_fails false c v _ _ _ H); [len|exact Hc|len].
  Qed.
  Lemma b_bo_fn_pointer G pt q a t e : pointer_code pt q a -> B_fn false G t e -> B_body G (pt ++ L "6" ++ t) e.
  Proof.
    intros Hp H. split; [eapply ptr_head; exact Hp|]. intros fu rest w sg f n Hfu Hc HB. rewrite <- !app_assoc.
    destruct (fn_pointer pt q a (t ++ rest) Hp) as (H1 & H2 & H3). change (L "6" ++ t ++ rest) with (ch "6" :: t ++ rest).
    unfold unq. eapply f_step; [apply text_at|]. rewrite H1, H2, H3. unfold demangle_pointer_type.
    eapply f_step; [apply pcv_at; exact Hp|]. cbv iota beta. eapply f_step; [apply eat_yes|]. cbv iota.
    assert (Hpl : 1 <= length pt) by (destruct (pointer_at _ _ _ Hp); lia).
    apply f_here. apply f_here. eapply H; [len|exact Hc|len].
  Qed.
  Lemma b_bo_member_class G pt q p r u c v t e : pointer_code pt q APointer -> B_qname G t e ->
      B_body G (pt ++ ext_code p r u ++ [cv_code true c v] ++ t) e.
  Proof.
    intros Hp [Hl Hq]. split; [eapply ptr_head; exact Hp|]. intros fu rest w sg f n Hfu Hc HB. rewrite <- !app_assoc. cbn [app].
    destruct (member_pointer pt q p r u c v (t ++ rest) Hp) as (H1 & H2 & H3 & H4).
    unfold unq. eapply f_step; [apply text_at|]. rewrite H1, H2, H3. unfold demangle_member_pointer_type.
    eapply f_step; [apply pcv_at; exact Hp|]. cbv iota beta. eapply f_step; [apply ext_at; apply cv_no_ext|].
    eapply f_step; [apply eat_no; exact H4|]. cbv iota. eapply f_step; [apply quals_at|]. cbv iota beta.
    assert (Hpl : 1 <= length pt) by (destruct (pointer_at _ _ _ Hp); lia).
    apply f_here. eapply Hq; [len|exact Hc|len].
  Qed.
  Lemma b_bo_member_target G pt q p r u c v t nm G1 t' e : pointer_code pt q APointer -> P_qname E B G t nm G1 -> B_body G1 t' e ->
      B_body G (pt ++ ext_code p r u ++ [cv_code true c v] ++ t ++ t') e.
  Proof.
    intros Hp [Hl Hq] Hb. split; [eapply ptr_head; exact Hp|]. intros fu rest w sg f n Hfu Hc HB. rewrite <- !app_assoc. cbn [app].
    destruct (member_pointer pt q p r u c v (t ++ t' ++ rest) Hp) as (H1 & H2 & H3 & H4).
    unfold unq. eapply f_step; [apply text_at|]. rewrite H1, H2, H3. unfold demangle_member_pointer_type.
    eapply f_step; [apply pcv_at; exact Hp|]. cbv iota beta. eapply f_step; [apply ext_at; apply cv_no_ext|].
    eapply f_step; [apply eat_no; exact H4|]. cbv iota. eapply f_step; [apply quals_at|]. cbv iota beta.
    assert (Hpl : 1 <= length pt) by (destruct (pointer_at _ _ _ Hp); lia).
    eapply f_after; [eapply Hq; [len|exact Hc|len]|]. intros cls s (w1 & sg1 & f1 & n1 & -> & X1 & S1 & L1 & C1 & R1).
    apply f_here. eapply (drop_fails _ _ _ Hb); [len|exact C1|len].
  Qed.
  Lemma b_bo_member_fn_class G pt q t e : pointer_code pt q APointer -> B_qname G t e -> B_body G (pt ++ L "8" ++ t) e.
  Proof.
    intros Hp [Hl Hq]. split; [eapply ptr_head; exact Hp|]. intros fu rest w sg f n Hfu Hc HB. rewrite <- !app_assoc.
    change (L "8" ++ ?x) with (ch "8" :: x).
    destruct (member_fn_pointer pt q (t ++ rest) Hp) as (H1 & H2 & H3).
    unfold unq. eapply f_step; [apply text_at|]. rewrite H1, H2, H3. unfold demangle_member_pointer_type.
    eapply f_step; [apply pcv_at; exact Hp|]. cbv iota beta. eapply f_step; [apply (ext_at _ _ _ false false false); reflexivity|].
    eapply f_step; [apply eat_yes|]. cbv iota.
    assert (Hpl : 1 <= length pt) by (destruct (pointer_at _ _ _ Hp); lia).
    apply f_here. eapply Hq; [len|exact Hc|len].
  Qed.
  Lemma b_bo_member_fn_target G pt q t nm G1 t' e : pointer_code pt q APointer -> P_qname E B G t nm G1 -> B_fn true G1 t' e ->
      B_body G (pt ++ L "8" ++ t ++ t') e.
  Proof.
    intros Hp [Hl Hq] Hf. split; [eapply ptr_head; exact Hp|]. intros fu rest w sg f n Hfu Hc HB. rewrite <- !app_assoc.
    change (L "8" ++ ?x) with (ch "8" :: x).
    destruct (member_fn_pointer pt q (t ++ t' ++ rest) Hp) as (H1 & H2 & H3).
    unfold unq. eapply f_step; [apply text_at|]. rewrite H1, H2, H3. unfold demangle_member_pointer_type.
    eapply f_step; [apply pcv_at; exact Hp|]. cbv iota beta. eapply f_step; [apply (ext_at _ _ _ false false false); reflexivity|].
    eapply f_step; [apply eat_yes|]. cbv iota.
    assert (Hpl : 1 <= length pt) by (destruct (pointer_at _ _ _ Hp); lia).
    eapply f_after; [eapply Hq; [len|exact Hc|len]|]. intros cls s (w1 & sg1 & f1 & n1 & -> & X1 & S1 & L1 & C1 & R1).
    apply f_here. eapply Hf; [len|exact C1|len].
  Qed.

  (** ** Arrays *)
  Lemma array_start e (r : str) fu sg f n : fails e (demangle_array_type E (K (pred fu))) (at_ (ch "Y" :: r) sg f n) ->
    fails e (unq E (K (pred fu))) (at_ (ch "Y" :: r) sg f n).
  Proof.
    intros H. unfold unq. eapply f_step; [apply text_at|]. change (is_tag_type (ch "Y" :: r)) with false.
    change (is_pointer_type (ch "Y" :: r)) with false. change (is_array_type (ch "Y" :: r)) with true. exact H.
  Qed.
  Lemma y_head r : exists p q, L "Y" ++ r = p ++ q /\ In p heads.
  Proof. eexists (L "Y"), _; split; [reflexivity|unfold heads; cbn [map In]; tauto]. Qed.
  Lemma b_bo_rank G rt v neg : signed_text rt v neg -> neg = true \/ v = 0%N -> B_body G (L "Y" ++ rt) InvalidArrayType.
  Proof.
    intros Hs Hd. split; [apply y_head|]. intros fu rest w sg f n Hfu Hc HB. rewrite <- app_assoc. change (L "Y" ++ ?x) with (ch "Y" :: x).
    apply array_start. unfold demangle_array_type. eapply f_step; [apply expect_yes|]. eapply f_step; [apply number_at; exact Hs|]. cbv iota beta.
    destruct Hd as [->| ->]; [|rewrite N.eqb_refl, orb_true_r]; apply f_fail.
  Qed.
  Lemma dims_fails t ds u v : dims t ds -> signed_text u v true -> forall r loop acc rest w sg f n G, (N.of_nat (length ds) < r)%N -> length (t ++ u) < loop ->
    ctx w sg f n G -> length sg + length ds <= B -> fails InvalidArrayType (dims_loop E loop r acc) (at_ (t ++ u ++ rest) sg f n).
  Proof.
    intros Hd Hu. induction Hd as [|t d t' ds Hn Hd IH]; intros r loop acc rest w sg f n G Hr Hlo Hc HB.
    - cbn [length app] in *. destruct loop as [|loop]; [lia|]. cbn [dims_loop]. destruct (N.eqb_spec r 0); [lia|].
      eapply f_step; [apply number_at; exact Hu|]. apply f_fail.
    - pose proof (num_len _ _ Hn). destruct loop as [|loop]; [lia|]. cbn [length] in *. cbn [dims_loop].
      destruct (N.eqb_spec r 0); [lia|]. rewrite <- app_assoc.
      eapply f_step; [apply (number_at t d false); exists t; auto|]. cbv iota beta.
      eapply (f_after _ _ _ _ _ (fun h s => s = at_ (t' ++ u ++ rest) (sg ++ [NInt d false]) f n /\ ctx (w ++ [Some (NInt d false)]) (sg ++ [NInt d false]) f n G)).
      + eapply wp_new_known; [exact Hc|lia|]. intros C1 _. auto.
      + intros h s [-> C1]. eapply IH; [lia|rewrite !app_length in *; lia|exact C1|rewrite app_length; cbn; lia].
  Qed.
  Lemma b_bo_dim G rt r ds dt t v : num_text rt r -> (N.of_nat (length ds) < r)%N -> dims dt ds -> signed_text t v true ->
      B_body G (L "Y" ++ rt ++ dt ++ t) InvalidArrayType.
  Proof.
    intros Hr Hlt Hd Ht. split; [apply y_head|]. pose proof (num_len _ _ Hr). pose proof (dims_len _ _ Hd).
    intros fu rest w sg f n Hfu Hc HB. rewrite <- !app_assoc. change (L "Y" ++ ?x) with (ch "Y" :: x).
    apply array_start. unfold demangle_array_type. eapply f_step; [apply expect_yes|].
    eapply f_step; [apply (number_at rt r false); exists rt; auto|]. cbv iota beta. destruct (N.eqb_spec r 0); [lia|]. cbn [orb].
    eapply f_step; [apply text_at|]. apply f_here. eapply (dims_fails dt ds t v Hd Ht); [exact Hlt|rewrite !app_length; lia|exact Hc|len].
  Qed.
  Lemma array_fails e G rt ds dt (u : str) : num_text rt (N.of_nat (length ds)) -> ds <> [] -> dims dt ds ->
    (forall fu rest w sg f n, S (length u) <= fu -> ctx w sg f n G -> length sg + 2 * length u <= B ->
      fails e ((c <- eat_str (L "$$C") ;; (if c then '(q, is_member) <- demangle_qualifiers ;; if is_member : bool then fail InvalidArrayType else ret q else ret Q_None)) ;;;
        k_type (K (pred fu)) QDrop) (at_ (u ++ rest) sg f n)) ->
    B_body G (L "Y" ++ rt ++ dt ++ u) e.
  Proof.
    intros Hr Hne Hd H. split; [apply y_head|]. pose proof (num_len _ _ Hr) as Hrl. pose proof (dims_len _ _ Hd) as Hdl.
    intros fu rest w sg f n Hfu Hc HB. rewrite <- !app_assoc. change (L "Y" ++ ?x) with (ch "Y" :: x).
    apply array_start. unfold demangle_array_type. eapply f_step; [apply expect_yes|].
    eapply f_step; [apply (number_at rt (N.of_nat (length ds)) false); exists rt; auto|]. cbv iota beta.
    assert (Hnz : (N.of_nat (length ds) =? 0)%N = false) by (apply N.eqb_neq; destruct ds; [congruence|cbn; lia]). rewrite Hnz. cbn [orb].
    eapply f_step; [apply text_at|]. eapply f_after; [eapply (dims_at E B dt ds Hd); [len|exact Hc|len]|].
    intros l s (w1 & sg1 & f1 & n1 & -> & X1 & S1 & L1 & C1 & hs & -> & R1). cbn [rev app].
    eapply (f_after _ _ _ _ _ (fun h s => s = at_ (u ++ rest) (sg1 ++ [NNodes hs]) f1 n1 /\ ctx (w1 ++ [Some (NNodes hs)]) (sg1 ++ [NNodes hs]) f1 n1 G)).
    { eapply wp_new_known; [exact C1|len|]. intros C2 _. auto. }
    intros h s [-> C2].
    assert (Hx : fails e ((c <- eat_str (L "$$C") ;; (if c then '(q, is_member) <- demangle_qualifiers ;; if is_member : bool then fail InvalidArrayType else ret q else ret Q_None)) ;;;
        k_type (K (pred fu)) QDrop) (at_ (u ++ rest) (sg1 ++ [NNodes hs]) f1 n1)) by (eapply H; [len|exact C2|len]).
    revert Hx. generalize (at_ (u ++ rest) (sg1 ++ [NNodes hs]) f1 n1) as s0. intros s0. unfold fails, wp, bind.
    destruct (eat_str (L "$$C") s0) as [[c s1]| | |]; auto.
    match goal with |- match match ?x with _ => _ end with _ => _ end -> _ => destruct x as [[q s2]| | |]; auto end.
    destruct (k_type (K (pred fu)) QDrop s2) as [[el s3]| | |]; auto. intros [].
  Qed.
  Lemma b_bo_member_quals G rt ds dt c v : num_text rt (N.of_nat (length ds)) -> ds <> [] -> dims dt ds ->
      B_body G (L "Y" ++ rt ++ dt ++ L "$$C" ++ [cv_code true c v]) InvalidArrayType.
  Proof.
    intros Hr Hne Hd. apply (array_fails _ G rt ds dt (L "$$C" ++ [cv_code true c v])); auto. intros fu rest w sg f n Hfu Hc HB.
    apply f_here. rewrite <- app_assoc. eapply f_step; [apply eats_yes|]. cbv iota. cbn [app]. eapply f_step; [apply quals_at|]. apply f_fail.
  Qed.
  Lemma b_bo_element G rt ds dt t e : num_text rt (N.of_nat (length ds)) -> ds <> [] -> dims dt ds -> B_body G t e ->
      B_body G (L "Y" ++ rt ++ dt ++ t) e.
  Proof.
    intros Hr Hne Hd Hb. apply (array_fails _ G rt ds dt t); auto. intros fu rest w sg f n Hfu Hc HB. pose proof Hb as [Hh _].
    eapply f_step.
    - rewrite (bind_eq _ _ _ _ _ (eats_no (L "$$C") (t ++ rest) _ _ _ (heads_strip (L "$$C") t Hh
        ltac:(intros r0; repeat (constructor; [reflexivity|]); constructor) rest))). reflexivity.
    - eapply (drop_fails _ _ _ Hb); [lia|exact Hc|lia].
  Qed.
  Lemma b_bo_element_cv G rt ds dt c v t e : num_text rt (N.of_nat (length ds)) -> ds <> [] -> dims dt ds -> B_body G t e ->
      B_body G (L "Y" ++ rt ++ dt ++ L "$$C" ++ [cv_code false c v] ++ t) e.
  Proof.
    intros Hr Hne Hd Hb. apply (array_fails _ G rt ds dt (L "$$C" ++ [cv_code false c v] ++ t)); auto. intros fu rest w sg f n Hfu Hc HB.
    rewrite <- app_assoc. eapply f_step.
    - rewrite (bind_eq _ _ _ _ _ (eats_yes (L "$$C") _ _ _ _)). cbn [app]. rewrite (bind_eq _ _ _ _ _ (quals_at _ _ _ _ _ _ _)). reflexivity.
    - eapply (drop_fails _ _ _ Hb); [len|exact Hc|len].
  Qed.
  Lemma b_bo_fn G t e : B_fn false G t e -> B_body G (L "$$A6" ++ t) e.
  Proof.
    intros H. split; [eexists (L "$$A6"), _; split; [reflexivity|unfold heads; cbn [map In]; tauto]|].
    intros fu rest w sg f n Hfu Hc HB. rewrite <- !app_assoc. unfold unq. eapply f_step; [apply text_at|].
    change (is_tag_type (L "$$A6" ++ t ++ rest)) with false. change (is_pointer_type (L "$$A6" ++ t ++ rest)) with false.
    change (is_array_type (L "$$A6" ++ t ++ rest)) with false. change (is_function_type (L "$$A6" ++ t ++ rest)) with true. cbv iota.
    eapply f_step; [apply eats_no; reflexivity|]. cbv iota. eapply f_step; [apply eats_yes|]. cbv iota.
    eapply H; [len|exact Hc|len].
  Qed.
  Lemma b_bo_member_fn G t e : B_fn true G t e -> B_body G (L "$$A8@@" ++ t) e.
  Proof.
    intros H. split; [eexists (L "$$A8@@"), _; split; [reflexivity|unfold heads; cbn [map In]; tauto]|].
    intros fu rest w sg f n Hfu Hc HB. rewrite <- !app_assoc. unfold unq. eapply f_step; [apply text_at|].
    change (is_tag_type (L "$$A8@@" ++ t ++ rest)) with false. change (is_pointer_type (L "$$A8@@" ++ t ++ rest)) with false.
    change (is_array_type (L "$$A8@@" ++ t ++ rest)) with false. change (is_function_type (L "$$A8@@" ++ t ++ rest)) with true. cbv iota.
    eapply f_step; [apply eats_yes|]. cbv iota. eapply H; [len|exact Hc|len].
  Qed.
  Lemma b_bo_custom G t e : B_tname G t e -> B_body G (L "?" ++ t) e.
  Proof.
    intros [Hl H]. split; [eexists (L "?"), _; split; [reflexivity|unfold heads; cbn [map In]; tauto]|].
    intros fu rest w sg f n Hfu Hc HB. rewrite <- !app_assoc. unfold unq. change (L "?" ++ ?x) with (ch "?" :: x). eapply f_step; [apply text_at|].
    change (is_tag_type (ch "?" :: t ++ rest)) with false. change (is_pointer_type (ch "?" :: t ++ rest)) with false.
    change (is_array_type (ch "?" :: t ++ rest)) with false. change (is_function_type (ch "?" :: t ++ rest)) with false.
    change (is_custom_type (ch "?" :: t ++ rest)) with true. cbv iota. unfold demangle_custom_type.
    eapply f_step; [apply expect_yes|]. apply f_here. eapply H; [len|exact Hc|len].
  Qed.

  (** ** Functions *)
  Lemma b_re_plain G t e : B_body G t e -> first_is_not "?"%char t -> B_rett G t e.
  Proof.
    intros H Hf. pose proof H as [Hh _]. split; [apply body_len; exact Hh|]. intros fu rest w sg f n Hfu Hc HB. unfold rett_m.
    eapply f_step; [apply eat_no; apply heads_at; exact Hh|]. apply f_here. revert fu rest w sg f n Hfu Hc HB.
    change (bd e ([] ++ t) G (fun fu => k_type (K fu) QResult)). apply (type_fails _ Q_None); [|exact H].
    intros r sg0 f0 n0. cbn [type_quals app].
    rewrite (bind_eq _ _ _ _ _ (eat_no (ch "?") (t ++ r) _ _ _ (first_not "?"%char t r ltac:(apply body_len; exact Hh) Hf))). reflexivity.
  Qed.
  Lemma b_re_quals m c v G t e : B_body G t e -> B_rett G (L "?" ++ [cv_code m c v] ++ t) e.
  Proof.
    intros H. split; [len|]. intros fu rest w sg f n Hfu Hc HB. unfold rett_m.
    eapply f_step; [apply eat_no; reflexivity|]. apply f_here. revert fu rest w sg f n Hfu Hc HB. rewrite app_assoc.
    change (bd e ((L "?" ++ [cv_code m c v]) ++ t) G (fun fu => k_type (K fu) QResult)). apply (type_fails _ (cvq c v)); [|exact H]. intros r sg f n. cbn [type_quals].
    change ((L "?" ++ [cv_code m c v]) ++ t ++ r) with (ch "?" :: cv_code m c v :: t ++ r).
    rewrite (bind_eq _ _ _ _ _ (eat_yes _ _ _ _ _)). rewrite (bind_eq _ _ _ _ _ (quals_at _ _ _ _ _ _ _)). reflexivity.
  Qed.
  Lemma digit_param i r : i < 10 -> first_is (one_of (L "@Z")) ([digit_char i] ++ r) = false.
  Proof.
    intros Hi. unfold first_is, one_of, digit_char. cbn [first_char app existsb]. change (L "@Z") with [ch "@"; ch "Z"]. cbn [existsb].
    change (ch "0") with 48%N. change (ch "@") with 64%N. change (ch "Z") with 90%N. rewrite !(proj2 (N.eqb_neq _ _)) by lia. reflexivity.
  Qed.
  Lemma b_ps_ref G i : i < 10 -> nth_error (snd G) i = None -> B_params G [digit_char i] InvalidFunctionParameterList.
  Proof.
    intros Hi Hx. split; [len|]. intros loop acc Hlo fu rest w sg f n Hfu Hc HB. destruct loop as [|loop]; [len|]. cbn [params_loop].
    eapply f_step; [apply text_at|]. rewrite digit_param by exact Hi. cbn [app is_empty].
    eapply f_step; [apply eatif_yes; apply digit_is; exact Hi|]. cbv iota. eapply f_step; [apply get_at|].
    change (s_fps _) with f. rewrite digit_val. pose proof Hc as (_ & Hf & _).
    assert (Hnone : nth_error f i = None) by (apply nth_error_None; rewrite (forall2_len _ _ _ Hf); apply nth_error_None; exact Hx).
    rewrite Hnone. apply f_here. apply f_fail.
  Qed.
  Lemma b_ps_here G t e : B_body G t e -> B_params G t e.
  Proof.
    intros H. pose proof H as [Hh _]. pose proof (body_len t Hh) as Hl. split; [exact Hl|]. intros loop acc Hlo fu rest w sg f n Hfu Hc HB.
    destruct loop as [|loop]; [lia|]. destruct (heads_param t Hh rest) as (H1 & H2 & H3). cbn [params_loop].
    eapply f_step; [apply text_at|]. rewrite H1, H2. eapply f_step; [apply eatif_no; exact H3|]. cbv iota.
    eapply f_step; [apply len_at|]. apply f_here. eapply (drop_fails _ _ _ H); eassumption.
  Qed.
  Lemma body_then G t y G' e : P_body E B G t y G' -> 
    forall fu loop acc rest w sg f n, length t <= fu -> ctx w sg f n G -> length sg + 2 * length t <= B ->
    (forall h w' sg' f' n', ext sg sg' -> length sg' <= length sg + 2 * length t -> ctx w' sg' f' n' (if length t =? 1 then G' else remember_param y G') ->
       fails e (params_loop (K fu) loop (h :: acc)) (at_ rest sg' f' n')) ->
    fails e (params_loop (K fu) (S loop) acc) (at_ (t ++ rest) sg f n).
  Proof.
    intros H. pose proof H as [Hh _]. pose proof (body_len t Hh) as Hl.
    intros fu loop acc rest w sg f n Hfu Hc HB HQ. destruct (heads_param t Hh rest) as (H1 & H2 & H3). cbn [params_loop].
    eapply f_step; [apply text_at|]. rewrite H1, H2. eapply f_step; [apply eatif_no; exact H3|]. cbv iota.
    eapply f_step; [apply len_at|]. eapply f_after; [eapply (drop_known _ _ _ _ _ _ H); eassumption|].
    intros h s (w1 & sg1 & f1 & n1 & -> & X1 & S1 & L1 & C1 & R1). eapply f_step; [apply len_at|].
    rewrite app_length. replace (length t + length rest <? length rest) with false by (symmetry; apply Nat.ltb_ge; lia).
    replace (length t + length rest - length rest) with (length t) by lia.
    destruct (length t) as [|[|m]] eqn:Ht; [lia| |].
    - cbn [Nat.eqb] in HQ. eapply f_step; [reflexivity|]. apply (HQ h w1 sg1); auto. lia.
    - cbn [Nat.eqb] in HQ. eapply f_step; [apply params_fps|]. apply (HQ h w1 sg1); auto; [lia|].
      destruct C1 as (A1 & A2 & A3). unfold remember_param. rewrite (forall2_len _ _ _ A2).
      destruct (length (snd G') <? 10); [|split; [exact A1|split; [exact A2|exact A3]]].
      split; [exact A1|]. split; [|exact A3]. cbn [snd]. apply Forall2_app; [exact A2|]. constructor; [exact R1|constructor].
  Qed.
  Lemma param_then G t y G' e : param E G t y G' -> (forall G t y G', body E G t y G' -> P_body E B G t y G') ->
    1 <= length t /\
    forall fu loop acc rest w sg f n, length t <= fu -> ctx w sg f n G -> length sg + 2 * length t <= B ->
    (forall h w' sg' f' n', ext sg sg' -> length sg' <= length sg + 2 * length t -> ctx w' sg' f' n' G' ->
       fails e (params_loop (K fu) loop (h :: acc)) (at_ rest sg' f' n')) ->
    fails e (params_loop (K fu) (S loop) acc) (at_ (t ++ rest) sg f n).
  Proof.
    intros H Hbody. destruct H as [G i y Hi Hy|G t y G' Hb Hl|G t y G' Hb Hl].
    - split; [len|]. intros fu loop acc rest w sg f n Hfu Hc HB HQ. cbn [params_loop]. eapply f_step; [apply text_at|].
      rewrite digit_param by exact Hi. cbn [app is_empty]. eapply f_step; [apply eatif_yes; apply digit_is; exact Hi|]. cbv iota. eapply f_step; [apply get_at|].
      change (s_fps _) with f. rewrite digit_val. pose proof Hc as (_ & Hf & _). destruct (forall2_nth _ _ _ _ _ Hf Hy) as (h & Hh & Hd).
      rewrite Hh. eapply f_step; [reflexivity|]. apply (HQ h w sg); try apply ext_refl; auto. len.
    - split; [lia|]. intros fu loop acc rest w sg f n Hfu Hc HB HQ. eapply body_then; [apply Hbody; exact Hb|exact Hfu|exact Hc|exact HB|].
      rewrite Hl. rewrite Hl in HQ. exact HQ.
    - split; [lia|]. intros fu loop acc rest w sg f n Hfu Hc HB HQ. eapply body_then; [apply Hbody; exact Hb|exact Hfu|exact Hc|exact HB|].
      destruct (Nat.eqb_spec (length t) 1); [lia|]. exact HQ.
  Qed.
  Lemma b_ps_later G t y G1 t' e : param E G t y G1 -> B_params G1 t' e -> B_params G (t ++ t') e.
  Proof.
    intros Hp [Hl' H]. destruct (param_then _ _ _ _ e Hp) as [Hl Hth]; [apply (read_all E B)|]. split; [len|].
    intros loop acc Hlo fu rest w sg f n Hfu Hc HB. destruct loop as [|loop]; [len|]. rewrite <- app_assoc.
    eapply Hth; [len|exact Hc|len|]. intros h w1 sg1 f1 n1 S1 L1 C1. eapply H; [len|len|exact C1|len].
  Qed.
  Lemma b_fn_result this G tt q rq l cc t e : this_code this tt q rq -> cc_code l cc -> B_rett G t e -> B_fn this G (tt ++ [l] ++ t) e.
  Proof.
    intros Ht Hcc [Hl H] fu rest w sg f n Hfu Hc HB. unfold demangle_function_type. fold (this_m this). rewrite <- !app_assoc.
    eapply f_step; [apply this_at; exact Ht|]. cbv iota beta. cbn [app]. eapply f_step; [apply cc_at; exact Hcc|].
    apply (f_unassoc _ _ _ _ (eat_char (ch "@")) (fun b : bool => if b then ret None else t <- k_type (K fu) QResult ;; ret (Some t))).
    fold (rett_m (K fu)). apply f_here. eapply H; [len|exact Hc|len].
  Qed.
  Lemma b_fn_params this G tt q rq l cc rt r G1 t e : this_code this tt q rq -> cc_code l cc -> P_rett E B G rt r G1 ->
      B_params G1 t e -> first_is_not "X"%char t -> B_fn this G (tt ++ [l] ++ rt ++ t) e.
  Proof.
    intros Ht Hcc [Hlr Hr] [Hl H] Hx fu rest w sg f n Hfu Hc HB. unfold demangle_function_type. fold (this_m this). rewrite <- !app_assoc.
    eapply f_step; [apply this_at; exact Ht|]. cbv iota beta. cbn [app]. eapply f_step; [apply cc_at; exact Hcc|].
    apply (f_unassoc _ _ _ _ (eat_char (ch "@")) (fun b : bool => if b then ret None else t <- k_type (K fu) QResult ;; ret (Some t))).
    fold (rett_m (K fu)). eapply f_after; [eapply Hr; [len|exact Hc|len]|].
    intros o s (w1 & sg1 & f1 & n1 & -> & X1 & S1 & L1 & C1 & R1). apply f_here. unfold demangle_function_parameter_list.
    eapply f_step; [apply eat_no; apply first_not; [exact Hl|exact Hx]|]. cbv iota. eapply f_step; [apply text_at|]. apply f_here.
    eapply H; [rewrite ?app_length; lia|len|exact C1|len].
  Qed.

  (** ** Symbols *)
  Lemma b_us_ref G t e : bad_ref G t e -> B_usym G t e.
  Proof.
    intros (i & Hi & Hx & -> & ->). split; [split; [len|]; intros r; apply digit_ordinary; exact Hi|].
    intros fu rest w sg f n Hfu Hc HB. unfold demangle_unqualified_symbol_name.
    eapply f_step; [apply text_at|]. rewrite digit_first by exact Hi. eapply ref_fails; eassumption.
  Qed.
  Lemma b_us_template G t e : B_inst t e -> B_usym G t e.
  Proof.
    intros [(r & ->) H]. split; [split; [len|]; intros r'; rewrite <- app_assoc; change (L "?$" ++ ?y) with (L "?" ++ L "$" ++ y); ord|].
    intros fu rest w sg f n Hfu Hc HB. unfold demangle_unqualified_symbol_name. eapply f_step; [apply text_at|].
    change (first_is is_digit ((L "?$" ++ r) ++ rest)) with false.
    change (starts_with (L "?$") ((L "?$" ++ r) ++ rest)) with true. cbv iota. eapply H; eassumption.
  Qed.
  Lemma b_va_type G s a t e : storage_code s a -> B_body G t e -> B_variable G ([s] ++ t) e.
  Proof.
    intros Hst Hb qn fu rest w sg f n Hfu Hc HB. rewrite <- app_assoc. cbn [app]. unfold demangle_encoded_symbol.
    eapply f_step; [apply text_at|]. eapply f_step; [reflexivity|]. destruct (storage_at sg f n s a (t ++ rest) Hst) as (Hs1 & sc & Hs2 & Hs3).
    rewrite Hs1. eapply f_step; [exact Hs2|]. unfold demangle_variable_encoding.
    apply f_here. eapply (drop_fails _ _ _ Hb); [len|exact Hc|len].
  Qed.
  Lemma b_va_class G s a t q k nm y G1 p r u m c v t' e :
      storage_code s a -> P_body E B G t (TPtr q k (Some nm) y) G1 -> B_qname G1 t' e ->
      B_variable G ([s] ++ t ++ ext_code p r u ++ [cv_code m c v] ++ t') e.
  Proof.
    intros Hst Hb [Hl' Hq] qn fu rest w sg f n Hfu Hc HB. rewrite <- !app_assoc. cbn [app]. unfold demangle_encoded_symbol.
    eapply f_step; [apply text_at|]. eapply f_step; [reflexivity|].
    destruct (storage_at sg f n s a (t ++ ext_code p r u ++ cv_code m c v :: t' ++ rest) Hst) as (Hs1 & sc & Hs2 & Hs3).
    rewrite Hs1. eapply f_step; [exact Hs2|]. unfold demangle_variable_encoding.
    eapply f_after; [eapply (drop_at _ _ _ _ _ _ Hb); [len|exact Hc|len]|]. intros h st (w1 & sg1 & f1 & n1 & -> & X1 & S1 & L1 & C1 & R1).
    pose proof R1 as (A1 & A2 & cls & pt & A3 & A4 & A5 & A6).
    eapply f_after; [eapply (wp_resolve E B KType h _ _ _ _ _ (fun nd s => nd = NPtr q (Some k) cls pt /\ s = at_ (ext_code p r u ++ cv_code m c v :: t' ++ rest) sg1 f1 n1)); [exact A3|reflexivity|auto]|].
    intros ? ? [-> ->]. cbv iota. apply f_here. eapply f_step; [apply ext_at; apply cv_no_ext|].
    set (sg2 := lset sg1 h (NPtr (N.lor q (extq p r u)) (Some k) cls pt)).
    eapply (f_after _ _ _ _ _ (fun _ s => s = at_ (cv_code m c v :: t' ++ rest) sg2 f1 n1 /\ ctx w1 sg2 f1 n1 G1 /\
       nth_error sg2 h = Some (NPtr (N.lor q (extq p r u)) (Some k) cls pt) /\ length sg2 = length sg1)).
    { eapply (fresh_modify E B _ _ _ _ _ _ _ _ _ _ (length sg) sg); [exact C1|split; [exact A1|split; [exact A2|exact A3]]|reflexivity|exact S1|lia|].
      intros C2 F2 S2 _ L2. cbn [append_quals node_quals map_quals] in *. split; [reflexivity|]. split; [exact C2|]. split; [apply F2|exact L2]. }
    intros [] st2 (-> & C2 & F2 & L2).
    eapply f_after; [eapply (wp_resolve E B KPtr h _ _ _ _ _ (fun nd s => nd = NPtr (N.lor q (extq p r u)) (Some k) cls pt /\ s = at_ (cv_code m c v :: t' ++ rest) sg2 f1 n1)); [exact F2|reflexivity|auto]|].
    intros ? ? [-> ->]. cbv iota. eapply f_step; [apply quals_at|]. cbv iota beta.
    destruct cls as [hc|]; [|contradiction A5]. apply f_here. apply f_here. eapply Hq; [len|exact C2|len].
  Qed.
  Lemma b_fu_typed x G ct c a this t e : class_code x ct c a this -> B_fn this G t e -> B_function G (opt x (L "$$J0") ++ ct ++ t) e.
  Proof.
    intros Hcl Hf qn fu rest w sg f n Hfu Hc HB. rewrite <- !app_assoc.
    destruct (class_head x ct c a this (t ++ rest) Hcl) as (l & r' & Hh & Hl & Hj).
    unfold demangle_encoded_symbol. eapply f_step; [apply text_at|].
    assert (Hfirst : exists hd, first_char (opt x (L "$$J0") ++ ct ++ t ++ rest) = Some hd /\ one_of (L "01234") hd = false).
    { destruct x; [eexists; split; reflexivity|]. cbn [opt app]. rewrite Hh. eexists. split; [reflexivity|exact Hl]. }
    destruct Hfirst as (hd & Hhd & Hhc). rewrite Hhd. eapply f_step; [reflexivity|]. rewrite Hhc. apply f_here.
    unfold demangle_function_encoding.
    assert (H1 : eat_str (L "$$J0") (at_ (opt x (L "$$J0") ++ ct ++ t ++ rest) sg f n) = Ok (x, at_ (ct ++ t ++ rest) sg f n)).
    { destruct x; [apply eats_yes|]. apply eats_no. exact Hj. }
    eapply f_step; [exact H1|]. eapply f_step; [apply text_at|]. assert (He : is_empty (ct ++ t ++ rest) = false) by (rewrite Hh; reflexivity). rewrite He.
    destruct (class_at sg f n x ct c a this (t ++ rest) Hcl) as (fc0 & mid & ttn & A1 & A2 & A3 & A4 & A5 & A6). cbv zeta in *.
    eapply f_step; [exact A1|]. eapply f_step; [exact A2|]. rewrite A3, A4.
    assert (Hcl1 : 1 <= length ct) by (destruct Hcl; cbn [length app]; len).
    apply f_here. eapply Hf; [len|exact Hc|len].
  Qed.
  Lemma parse_fails (t : str) e fu rest sg f n : ordinary (t ++ rest) ->
    fails e (demangle_declarator E (K fu)) (at_ (t ++ rest) sg f n) -> fails e (k_parse (K (S fu))) (at_ ((L "?" ++ t) ++ rest) sg f n).
  Proof.
    intros Ho H. cbn [knot_of k_parse]. unfold do_parse. rewrite <- app_assoc. eapply f_step; [apply text_at|].
    change (starts_with (L ".") (L "?" ++ t ++ rest)) with false. cbv iota.
    assert (H1 : starts_with (L "??@") (L "?" ++ t ++ rest) = false).
    { unfold starts_with. change (strip_prefix (L "??@") (L "?" ++ t ++ rest)) with (strip_prefix (L "?@") (t ++ rest)). rewrite (proj2 Ho). reflexivity. }
    rewrite H1. change (L "?" ++ t ++ rest) with (ch "?" :: t ++ rest). eapply f_step; [apply expect_yes|].
    eapply f_step; [unfold demangle_special_intrinsic; rewrite (bind_eq _ _ _ _ _ (ordinary_none _ _ _ _ Ho)); reflexivity|]. exact H.
  Qed.
  Lemma b_sy_name G t e : B_usym G t e -> B_symbol G (L "?" ++ t) e.
  Proof.
    intros [[Hl Ho] H]. split; [eexists; reflexivity|]. intros fu rest w sg f n Hfu Hc HB. destruct fu as [|fu]; [len|].
    apply parse_fails; [apply Ho|]. unfold demangle_declarator, demangle_fully_qualified_symbol_name. apply f_here. apply f_here. eapply H; [len|exact Hc|len].
  Qed.
  Lemma b_sy_scope G t i G1 t' e : P_usym E B G t i G1 -> (forall r, ordinary (t ++ r)) -> B_chain G1 t' e -> B_symbol G (L "?" ++ t ++ t') e.
  Proof.
    intros [Hl H] Ho Hch. split; [eexists; reflexivity|]. intros fu rest w sg f n Hfu Hc HB. destruct fu as [|fu]; [len|].
    apply parse_fails; [rewrite <- app_assoc; apply Ho|]. unfold demangle_declarator, demangle_fully_qualified_symbol_name. apply f_here.
    rewrite <- app_assoc. eapply f_after; [eapply H; [len|exact Hc|len]|]. intros id s (w1 & sg1 & f1 & n1 & -> & X1 & S1 & L1 & C1 & R1).
    apply f_here. eapply (chain_fails id); [exact Hch|len|exact C1|len].
  Qed.
  Lemma b_sy_structor G t d a G1 : P_usym E B G t (IStructor d a) G1 -> (forall r, ordinary (t ++ r)) ->
    B_symbol G (L "?" ++ t ++ L "@") InvalidFullyQualifiedSymbolName.
  Proof.
    intros [Hl H] Ho. split; [eexists; reflexivity|]. intros fu rest w sg f n Hfu Hc HB. destruct fu as [|fu]; [len|].
    apply parse_fails; [rewrite <- app_assoc; apply Ho|]. unfold demangle_declarator, demangle_fully_qualified_symbol_name. apply f_here.
    rewrite <- app_assoc. eapply f_after; [eapply H; [len|exact Hc|len]|].
    intros id s (w1 & sg1 & f1 & n1 & -> & X1 & S1 & L1 & C1 & nd & F1 & tp & -> & _).
    pose proof (c_ch_end E B G1) as Hch.
    eapply f_after; [eapply (chain_at _ _ id); [exact Hch|len|exact C1|len]|].
    intros qn s (w2 & sg2 & f2 & n2 & -> & X2 & S2 & L2 & C2 & c & hs & Q1 & Q2 & Q3 & Q4). inversion Q4; subst. cbn [app] in *.
    pose proof (ext_nth _ _ _ _ S2 (proj2 (proj2 F1))) as Hid.
    assert (Hres : forall k h nd, nth_error sg2 h = Some nd -> hkind k nd = true -> res_ k h (at_ rest sg2 f2 n2) = Ok (nd, at_ rest sg2 f2 n2)).
    { intros k h nd Hn Hk. unfold res_, resolve. change (s_store (at_ rest sg2 f2 n2)) with sg2. rewrite Hn, Hk. reflexivity. }
    eapply f_step; [apply Hres; [exact Hid|reflexivity]|]. cbv iota.
    eapply f_step; [apply Hres; [exact (proj2 (proj2 Q1))|reflexivity]|]. cbv iota.
    eapply f_step; [apply Hres; [exact (proj2 (proj2 Q2))|reflexivity]|]. cbv iota. cbn [length Nat.ltb Nat.leb]. apply f_here. apply f_fail.
  Qed.
  Lemma b_sy_encoded G t i G1 c ss G2 r x t' e : P_usym E B G t i G1 -> (forall r, ordinary (t ++ r)) -> P_chain E B G1 c ss G2 -> id_text E i ss r x ->
    (forall qn, bd e t' G2 (fun fu => demangle_encoded_symbol E (K fu) qn)) -> B_symbol G (L "?" ++ t ++ c ++ t') e.
  Proof.
    intros Hu Ho Hch Hx Hv. split; [eexists; reflexivity|]. intros fu rest w sg f n Hfu Hc HB. destruct fu as [|fu]; [len|].
    apply parse_fails; [rewrite <- app_assoc; apply Ho|]. unfold demangle_declarator.
    replace ((t ++ c ++ t') ++ rest) with ((t ++ c) ++ (t' ++ rest)) by (rewrite <- !app_assoc; reflexivity).
    pose proof (proj1 Hu) as Hl. eapply f_after; [eapply (qualified_at _ _ _ _ _ _ _ _ _ _ _ Hu Hch Hx); [len|exact Hc|len]|].
    intros qn s (w1 & sg1 & f1 & n1 & -> & X1 & S1 & L1 & C1 & R1). apply f_here. eapply Hv; [len|exact C1|len].
  Qed.

  (** A conversion operator keeps an empty target until a function signature fills it in. *)
  Definition convR (n0 : nat) w (sg : store) qn : Prop := exists id c hs tp,
    fresh n0 w sg qn (NQual c) /\ fresh n0 w sg c (NNodes (hs ++ [id])) /\ fresh n0 w sg id (NConv tp None).
  Lemma convR_ext n0 w sg w' sg' qn : ext w w' -> ext sg sg' -> convR n0 w sg qn -> convR n0 w' sg' qn.
  Proof. intros X S (id & c & hs & tp & A1 & A2 & A3). exists id, c, hs, tp. split; [eapply fresh_ext; eauto|]. split; eapply fresh_ext; eauto. Qed.
  Lemma conv_qualified_at G t a0 G1 c ss G2 : P_usym E B G t (IConv a0) G1 -> P_chain E B G1 c ss G2 ->
    rd 0 (t ++ c) G G2 (fun fu => demangle_fully_qualified_symbol_name E (K fu)) convR.
  Proof.
    intros [Hl H1] H2 fu rest w sg f n Hfu Hc HB. unfold demangle_fully_qualified_symbol_name. rewrite <- app_assoc.
    apply wp_bind. eapply wp_mono; [eapply H1; [len|exact Hc|len]|]. intros id s (w1 & sg1 & f1 & n1 & -> & X1 & S1 & L1 & C1 & R1).
    apply wp_bind. eapply wp_mono; [eapply (chain_at _ _ id); [exact H2|len|exact C1|len]|].
    intros qn s (w2 & sg2 & f2 & n2 & -> & X2 & S2 & L2 & C2 & ch0 & hs & Q1 & Q2 & Q3 & Q4).
    pose proof (ext_len _ _ S1) as E1. pose proof (ext_len _ _ S2) as E2.
    destruct R1 as (nd & F1 & tp & -> & Ht). eapply fresh_ext in F1; [|exact X2|exact S2].
    pose proof F1 as (B1 & B2 & B3). apply wp_bind. eapply (wp_resolve E B); [exact B3|reflexivity|]. apply wp_ret.
    eapply (fin_intro E); [eapply ext_trans; eauto|eapply ext_trans; eauto|len|exact C2|]. exists id, ch0, hs, tp.
    split; [eapply fresh_le; [|exact Q1]; lia|]. split; [eapply fresh_le; [|exact Q2]; lia|exact F1].
  Qed.
  Lemma conv_end w sg f n G n0 rest qn h nm : ctx w sg f n G -> convR n0 w sg qn -> fresh n0 w sg h nm -> is_sym nm = true -> n0 <= length sg ->
    fails InvalidDeclarator (modify KSym h (set_sym_name qn) ;;; o <- unqualified_identifier qn ;; uqn <- ok_or o InvalidDeclarator ;;
      n <- res_ KIdent uqn ;; match n with NConv _ None => fail InvalidDeclarator | _ => ret h end) (at_ rest sg f n).
  Proof.
    intros Hc (id & c & hs & tp & A1 & A2 & A3) Hh Hs Hn.
    pose proof (proj2 (proj2 A1)) as Z1. pose proof (proj2 (proj2 A2)) as Z2. pose proof (proj2 (proj2 A3)) as Z3. pose proof (proj2 (proj2 Hh)) as Z4.
    eapply f_after; [eapply (fresh_modify E B _ _ _ _ _ _ _ _ _ nm n0 [] (fun _ s => exists sg', s = at_ rest sg' f n /\ forall j, j <> h -> nth_error sg' j = nth_error sg j)); [exact Hc|exact Hh|exact Hs|exists sg; reflexivity|cbn; lia|]|].
    { intros _ _ _ O3 _. eexists. split; [reflexivity|exact O3]. }
    intros [] s (sg' & -> & O3).
    assert (H1 : nth_error sg' qn = Some (NQual c)) by (rewrite O3; [exact Z1|intros ->; rewrite Z1 in Z4; injection Z4 as <-; discriminate]).
    assert (H2 : nth_error sg' c = Some (NNodes (hs ++ [id]))) by (rewrite O3; [exact Z2|intros ->; rewrite Z2 in Z4; injection Z4 as <-; discriminate]).
    assert (H3 : nth_error sg' id = Some (NConv tp None)) by (rewrite O3; [exact Z3|intros ->; rewrite Z3 in Z4; injection Z4 as <-; discriminate]).
    eapply f_step; [eapply unq_eq; [exact H1|exact H2|exact H3|reflexivity]|]. eapply f_step; [reflexivity|].
    eapply f_after; [eapply (wp_resolve E B KIdent id _ _ _ _ _ (fun nd s => nd = NConv tp None)); [exact H3|reflexivity|reflexivity]|].
    intros ? ? ->. apply f_fail.
  Qed.
  Lemma b_sy_conv_variable G t a0 G1 c ss G2 v a y G3 : P_usym E B G t (IConv a0) G1 -> (forall r, ordinary (t ++ r)) -> P_chain E B G1 c ss G2 ->
    P_variable E B G2 v a y G3 -> B_symbol G (L "?" ++ t ++ c ++ v) InvalidDeclarator.
  Proof.
    intros Hu Ho Hch Hv. split; [eexists; reflexivity|]. intros fu rest w sg f n Hfu Hc HB. destruct fu as [|fu]; [len|].
    apply parse_fails; [rewrite <- app_assoc; apply Ho|]. unfold demangle_declarator.
    replace ((t ++ c ++ v) ++ rest) with ((t ++ c) ++ (v ++ rest)) by (rewrite <- !app_assoc; reflexivity).
    pose proof (proj1 Hu) as Hl. eapply f_after; [eapply (conv_qualified_at _ _ _ _ _ _ _ Hu Hch); [len|exact Hc|len]|].
    intros qn s (w1 & sg1 & f1 & n1 & -> & X1 & S1 & L1 & C1 & R1). pose proof (ext_len _ _ S1).
    eapply f_after; [eapply Hv; [len|exact C1|len]|].
    intros h s (w2 & sg2 & f2 & n2 & -> & X2 & S2 & L2 & C2 & sc & vt & R2 & R3 & R4). pose proof (ext_len _ _ S2).
    eapply convR_ext in R1; [|exact X2|exact S2].
    eapply (conv_end _ _ _ _ _ (length sg)); [exact C2|exact R1|eapply fresh_le; [|exact R2]; lia|reflexivity|lia].
  Qed.
  Lemma b_sy_conv_function G t a0 G1 c ss G2 v k a sig G3 : P_usym E B G t (IConv a0) G1 -> (forall r, ordinary (t ++ r)) -> P_chain E B G1 c ss G2 ->
    P_function E B G2 v k a sig G3 -> ret_of sig = None -> B_symbol G (L "?" ++ t ++ c ++ v) InvalidDeclarator.
  Proof.
    intros Hu Ho Hch [Hh Hv] Hr. split; [eexists; reflexivity|]. intros fu rest w sg f n Hfu Hc HB. destruct fu as [|fu]; [len|].
    apply parse_fails; [rewrite <- app_assoc; apply Ho|]. unfold demangle_declarator.
    replace ((t ++ c ++ v) ++ rest) with ((t ++ c) ++ (v ++ rest)) by (rewrite <- !app_assoc; reflexivity).
    pose proof (proj1 Hu) as Hl. eapply f_after; [eapply (conv_qualified_at _ _ _ _ _ _ _ Hu Hch); [len|exact Hc|len]|].
    intros qn s (w1 & sg1 & f1 & n1 & -> & X1 & S1 & L1 & C1 & R1). pose proof (ext_len _ _ S1).
    unfold demangle_encoded_symbol. eapply (f_after _ _ _ _ _ (fun h s => exists w2 sg2 f2 n2 sh, s = at_ rest sg2 f2 n2 /\ ctx w2 sg2 f2 n2 G3 /\
      convR (length sg) w2 sg2 qn /\ fresh (length sg) w2 sg2 h (NFunc None sh) /\ length sg <= length sg2)).
    - destruct (Hh rest) as (hd & tl & Hhd & Hhc). eapply wp_step; [apply text_at|].
      assert (Hfc : first_char (v ++ rest) = Some hd) by (rewrite Hhd; reflexivity). rewrite Hfc. eapply wp_step; [reflexivity|]. rewrite Hhc.
      apply wp_bind. eapply wp_mono; [eapply Hv; [len|exact C1|len]|].
      intros h s (w2 & sg2 & f2 & n2 & -> & X2 & S2 & L2 & C2 & sh & R2 & R3). pose proof (ext_len _ _ S2).
      eapply convR_ext in R1; [|exact X2|exact S2].
      apply wp_bind. eapply (wp_resolve E B); [exact (proj2 (proj2 R2))|reflexivity|]. destruct (DF_ret _ _ _ _ _ _ R3) as (snd' & N1 & N2 & N3).
      apply wp_bind. eapply (wp_resolve E B); [eapply ctx_get; [exact C2|exact N1]|exact N2|].
      rewrite Hr in N3. destruct (sig_return snd') as [rh|] eqn:Hsr; [contradiction|].
      pose proof R1 as (id & c0 & hs & tp & A1 & A2 & A3).
      eapply wp_step; [eapply unq_eq; [apply A1|apply A2|apply A3|reflexivity]|]. eapply wp_step; [reflexivity|].
      apply wp_bind. eapply (same_modify E B); [apply A3|reflexivity|reflexivity|]. apply wp_ret.
      exists w2, sg2, f2, n2, sh. split; [reflexivity|]. split; [exact C2|]. split; [exact R1|]. split; [eapply fresh_le; [|exact R2]; lia|lia].
    - intros h s (w2 & sg2 & f2 & n2 & sh & -> & C2 & R2 & F2 & L2).
      eapply conv_end; [exact C2|exact R2|exact F2|reflexivity|exact L2].
  Qed.

  (** ** All phrases together *)
  Theorem bad_all :
    (forall G t e, bad_piece E G t e -> B_piece G t e) /\
    (forall G t e, bad_chain E G t e -> B_chain G t e) /\
    (forall G t e, bad_tname E G t e -> B_tname G t e) /\
    (forall G t e, bad_qname E G t e -> B_qname G t e) /\
    (forall t e, bad_inst E t e -> B_inst t e) /\
    (forall t e, bad_template E t e -> B_template t e) /\
    (forall G t e, bad_targs E G t e -> B_targs G t e) /\
    (forall G t e, bad_targ E G t e -> B_targ G t e) /\
    (forall G t e, bad_body E G t e -> B_body G t e) /\
    (forall G t e, bad_rett E G t e -> B_rett G t e) /\
    (forall G t e, bad_params E G t e -> B_params G t e) /\
    (forall this G t e, bad_fn E this G t e -> B_fn this G t e) /\
    (forall G t e, bad_usym E G t e -> B_usym G t e) /\
    (forall G t e, bad_variable E G t e -> B_variable G t e) /\
    (forall G t e, bad_function E G t e -> B_function G t e) /\
    (forall G t e, bad_symbol E G t e -> B_symbol G t e).
  Proof.
    destruct (read_all E B) as (R1 & R2 & R3 & R4 & R5 & _ & R6 & R7 & _ & R8 & _ & _ & R11 & _ & _ & _ & _ & R16 & _ & R17 & R18 & _).
    apply (bad_grammar_m E); intros.
    - apply b_pc_ref; assumption.
    - apply b_pc_template; assumption.
    - eapply b_pc_local; eassumption.
    - apply b_ch_here; assumption.
    - eapply b_ch_later; eauto.
    - apply b_tn_ref; assumption.
    - apply b_tn_template; assumption.
    - apply b_qn_name; assumption.
    - eapply b_qn_scope; eauto.
    - apply b_ti_ref; assumption.
    - eapply b_ti_args; eassumption.
    - apply b_tp_inst; assumption.
    - eapply b_tp_unnamed; eauto.
    - apply b_ta_here; assumption.
    - apply b_ta_sep; assumption.
    - eapply b_ta_later; eauto.
    - apply b_tg_type; assumption.
    - apply b_tg_typeb; assumption.
    - apply b_tg_typec; assumption.
    - apply b_tg_alias; assumption.
    - apply b_tg_auto; assumption.
    - eapply b_tg_auto_pointer; eauto.
    - apply b_tg_pointer; assumption.
    - apply b_tg_reference; assumption.
    - apply b_bo_tag; assumption.
    - eapply b_bo_pointer; eassumption.
    - eapply b_bo_fn_pointer; eassumption.
    - eapply b_bo_member_class; eassumption.
    - eapply b_bo_member_target; eauto.
    - eapply b_bo_member_fn_class; eassumption.
    - eapply b_bo_member_fn_target; eauto.
    - eapply b_bo_rank; eassumption.
    - eapply b_bo_dim; eassumption.
    - eapply b_bo_member_quals; eassumption.
    - eapply b_bo_element; eassumption.
    - eapply b_bo_element_cv; eassumption.
    - apply b_bo_fn; assumption.
    - apply b_bo_member_fn; assumption.
    - apply b_bo_custom; assumption.
    - apply b_re_plain; assumption.
    - apply b_re_quals; assumption.
    - apply b_ps_ref; assumption.
    - apply b_ps_here; assumption.
    - eapply b_ps_later; eassumption.
    - eapply b_fn_result; eassumption.
    - eapply b_fn_params; eauto.
    - apply b_us_ref; assumption.
    - apply b_us_template; assumption.
    - eapply b_va_type; eassumption.
    - eapply b_va_class; eauto.
    - eapply b_fu_typed; eassumption.
    - apply b_sy_name; assumption.
    - edestruct R16 as [P O]; [eassumption|]. eapply b_sy_scope; eauto.
    - edestruct R16 as [P O]; [eassumption|]. eapply b_sy_structor; eauto.
    - edestruct R16 as [P O]; [eassumption|]. eapply b_sy_encoded; eauto.
    - edestruct R16 as [P O]; [eassumption|]. eapply b_sy_encoded; eauto.
    - edestruct R16 as [P O]; [eassumption|]. eapply b_sy_conv_variable; eauto.
    - edestruct R16 as [P O]; [eassumption|]. eapply b_sy_conv_function; eauto.
      destruct sig as [[]|]; cbn; try reflexivity. match goal with |- ?r = None => destruct r; [contradiction|reflexivity] end.
  Qed.
End Bad.
