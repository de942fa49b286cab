(** Reading backwards: symbols.  Proof infrastructure for [Accepted]. *)
From Verif Require Import Parser Utf8 Show Den Emit Grammar Lex Step Number Pend ReadAt Round RoundNames RoundTypes RoundBody RoundArgs RoundSyms RoundSpecials Trip Sound SoundNames SoundTypes SoundArgs LitBack.

(** ** Function classes *)
Lemma class_plain (x : bool) l fc0 : In (l, fc0) function_class_table -> let fc := N.lor fc0 (if x then FC_ExternC else FC_None) in
  contains fc FC_StaticThisAdjust = false -> contains fc FC_NoParameterList = false ->
  contains fc FC_VirtualThisAdjust = false /\ exists c, class_code x [l] c NoAdjustment (N.land fc (N.lor FC_Global FC_Static) =? 0)%N.
Proof.
  cbv zeta. intros Hin H1 H2. cases Hin; injection Hin as <- <-; destruct x; try discriminate H1; try discriminate H2; (split; [reflexivity|]); eexists;
    first [exact (cl_global _ false)|exact (cl_global _ true)
      |exact (cl_plain _ Private false)|exact (cl_plain _ Private true)|exact (cl_plain _ Protected false)|exact (cl_plain _ Protected true)|exact (cl_plain _ Public false)|exact (cl_plain _ Public true)
      |exact (cl_static _ Private false)|exact (cl_static _ Private true)|exact (cl_static _ Protected false)|exact (cl_static _ Protected true)|exact (cl_static _ Public false)|exact (cl_static _ Public true)
      |exact (cl_virtual _ Private false)|exact (cl_virtual _ Private true)|exact (cl_virtual _ Protected false)|exact (cl_virtual _ Protected true)|exact (cl_virtual _ Public false)|exact (cl_virtual _ Public true)].
Qed.
Lemma class_adjustor (x : bool) l fc0 t z : In (l, fc0) function_class_table -> signed_number t z -> let fc := N.lor fc0 (if x then FC_ExternC else FC_None) in
  contains fc FC_StaticThisAdjust = true -> contains fc FC_NoParameterList = false /\ exists c a, class_code x (l :: t) c a (N.land fc (N.lor FC_Global FC_Static) =? 0)%N.
Proof.
  cbv zeta. intros Hin Hs H1. cases Hin; injection Hin as <- <-; destruct x; try discriminate H1; (split; [reflexivity|]); do 2 eexists;
    first [exact (cl_adjustor _ Private false _ _ Hs)|exact (cl_adjustor _ Private true _ _ Hs)|exact (cl_adjustor _ Protected false _ _ Hs)|exact (cl_adjustor _ Protected true _ _ Hs)
      |exact (cl_adjustor _ Public false _ _ Hs)|exact (cl_adjustor _ Public true _ _ Hs)].
Qed.
Lemma class_untyped (x : bool) l fc0 : In (l, fc0) function_class_table -> let fc := N.lor fc0 (if x then FC_ExternC else FC_None) in
  contains fc FC_NoParameterList = true -> l = ch "9" /\ contains fc FC_StaticThisAdjust = false /\ contains fc FC_VirtualThisAdjust = false.
Proof. cbv zeta. intros Hin H1. cases Hin; injection Hin as <- <-; destruct x; try discriminate H1; repeat split. Qed.
Lemma class_virtual (x : bool) (r : bool) l fc1 : In (l, fc1) virtual_class_table ->
  let fc := N.lor (N.lor fc1 (N.lor FC_VirtualThisAdjust (if r then FC_VirtualThisAdjustEx else FC_None))) (if x then FC_ExternC else FC_None) in
  contains fc FC_StaticThisAdjust = false /\ contains fc FC_VirtualThisAdjust = true /\ contains fc FC_VirtualThisAdjustEx = r /\
  contains fc FC_NoParameterList = false /\ (N.land fc (N.lor FC_Global FC_Static) =? 0)%N = true /\
  exists a far, l = (ch "0" + 2 * access_index a + (if far : bool then 1 else 0))%N.
Proof.
  cbv zeta. intros Hin. cases Hin; injection Hin as <- <-; destruct x, r; (do 5 (split; [reflexivity|]));
    first [exists Private, false; reflexivity|exists Private, true; reflexivity|exists Protected, false; reflexivity|exists Protected, true; reflexivity|exists Public, false; reflexivity|exists Public, true; reflexivity].
Qed.
Lemma take_class {A} (x : bool) (k : N -> option thisadj -> M A) sg f n T (Q : A -> st -> Prop) :
  (forall r fc, T = ch "9" :: r -> contains fc FC_NoParameterList = true -> pw (k fc None) Q (at_ r sg f n)) ->
  (forall ct c a this r fc ttn, class_code x ct c a this -> T = ct ++ r -> contains fc FC_NoParameterList = false ->
     (N.land fc (N.lor FC_Global FC_Static) =? 0)%N = this -> pw (k fc ttn) Q (at_ r sg f n)) ->
  pw (fc0 <- demangle_function_class ;; let fc := N.lor fc0 (if x then FC_ExternC else FC_None) in ttn <- this_adjust fc ;; k fc ttn) Q (at_ T sg f n).
Proof.
  intros H9 HQ. unfold demangle_function_class. apply pw_bind. apply pw_bind. apply pw_next. intros l T1 ->. destruct (N.eqb_spec l (ch "$")) as [->|_].
  - apply pw_bind.
    assert (Hgo : forall (r : bool) T2, (forall t3, T2 = t3 -> True) -> ch "$" :: T1 = L "$" ++ opt r (L "R") ++ T2 ->
      pw (g <- next_char InvalidFunctionClass ;; c <- ok_or (lookup g virtual_class_table) InvalidFunctionClass ;;
          ret (N.lor c (N.lor FC_VirtualThisAdjust (if r then FC_VirtualThisAdjustEx else FC_None))))
        (fun fc0 s' => pw (let fc := N.lor fc0 (if x then FC_ExternC else FC_None) in ttn <- this_adjust fc ;; k fc ttn) Q s') (at_ T2 sg f n)).
    { intros r T2 _ HT. rewrite HT in HQ. apply pw_bind. apply pw_next. intros l T3 ->. apply pw_bind. apply pw_ok_or. intros fc1 Hfc. apply lookup_in in Hfc. apply pw_ret.
      destruct (class_virtual x r l fc1 Hfc) as (A1 & A2 & A3 & A4 & A5 & a & far & A6). cbv zeta in *.
      set (fc := N.lor (N.lor fc1 (N.lor FC_VirtualThisAdjust (if r then FC_VirtualThisAdjustEx else FC_None))) (if x then FC_ExternC else FC_None)) in *.
      apply pw_bind. unfold this_adjust. rewrite A1, A2, A3. cbv iota. apply pw_bind. destruct r.
      - apply pw_bind. apply pw_signed. intros t1 z1 T4 Z1 ->. apply pw_bind. apply pw_signed. intros t2 z2 T5 Z2 ->. apply pw_ret. cbv iota beta.
        apply pw_bind. apply pw_signed. intros t3 z3 T6 Z3 ->. apply pw_bind. apply pw_signed. intros t4 z4 T7 Z4 ->. apply pw_ret.
        eapply HQ; [exact (cl_vtordispex x a far _ _ _ _ _ _ _ _ Z1 Z2 Z3 Z4)| |exact A4|exact A5]. rewrite <- A6. cbn [opt]. rewrite <- !app_assoc. reflexivity.
      - apply pw_ret. cbv iota beta. apply pw_bind. apply pw_signed. intros t3 z3 T6 Z3 ->. apply pw_bind. apply pw_signed. intros t4 z4 T7 Z4 ->. apply pw_ret.
        eapply HQ; [exact (cl_vtordisp x a far _ _ _ _ Z3 Z4)| |exact A4|exact A5]. rewrite <- A6. cbn [opt]. rewrite <- !app_assoc. reflexivity. }
    apply pw_eat.
    + intros T2 ->. apply (Hgo true); [auto|reflexivity].
    + intros _. apply (Hgo false); [auto|reflexivity].
  - apply pw_ok_or. intros fc0 Hfc. apply lookup_in in Hfc. cbv zeta. set (fc := N.lor fc0 (if x then FC_ExternC else FC_None)).
    apply pw_bind. unfold this_adjust. destruct (contains fc FC_NoParameterList) eqn:Hn.
    + destruct (class_untyped x l fc0 Hfc Hn) as (-> & B1 & B2). fold fc in B1, B2. rewrite B1, B2. apply pw_ret. apply H9; [reflexivity|exact Hn].
    + destruct (contains fc FC_StaticThisAdjust) eqn:Hs.
      * apply pw_bind. apply pw_signed. intros t z T2 Hz ->. apply pw_ret. destruct (class_adjustor x l fc0 t z Hfc Hz Hs) as (_ & c & a & Hc).
        eapply HQ; [exact Hc|reflexivity|exact Hn|reflexivity].
      * destruct (class_plain x l fc0 Hfc Hs Hn) as (B2 & c & Hc). fold fc in B2. rewrite B2. apply pw_ret. eapply HQ; [exact Hc|reflexivity|exact Hn|reflexivity].
Qed.

Section Syms.
  Variable E : env.
  Hypothesis Hout : (0 < e_out E)%N.
  Notation K := (knot_of E).
  Notation ctx := (ctx E).
  Notation DS w := (dstr E (cnt w) w).
  Notation DT w := (dty E (cnt w) w).
  Notation finds := (finds E).

  Section At.
    Variable fu : nat.
    Hypothesis IHt : good_tinst E fu.
    Hypothesis IHp : good_parse E fu.
    Hypothesis IHy : good_type E fu.
    Hypothesis IHr : good_raw E fu.

    (** ** Functions *)
    Definition functions (G : tab) (t : str) (p : fn_class * adjustment * option ty) (G' : tab) : Prop := function E G t (fst (fst p)) (snd (fst p)) (snd p) G'.
    Lemma class_len x ct c a this : class_code x ct c a this -> 1 <= length ct.
    Proof. destruct 1; cbn [length]; try lia; rewrite app_length; cbn; lia. Qed.
    Lemma f_function : finds fu (demangle_function_encoding E (K fu)) functions.
    Proof.
      intros T w sg f n G Hl Hcl Hc. unfold demangle_function_encoding. apply pw_bind.
      assert (Hgo : forall (x : bool) T1, T = opt x (L "$$J0") ++ T1 -> pw (s <- text ;; if is_empty s then fail InvalidFunctionEncoding else
        fc0 <- demangle_function_class ;; let fc := N.lor fc0 (if x then FC_ExternC else FC_None) in
        ttn <- this_adjust fc ;; fsn <- (if contains fc FC_NoParameterList then intern E (NFSig fsig_default)
              else demangle_function_type E (K fu) (N.land fc (N.lor FC_Global FC_Static) =? 0)%N) ;;
        sig <- match ttn with Some ta => n <- res_ KFSig fsn ;; match n with NFSig f => intern E (NThunk f ta) | _ => panic end | None => ret fsn end ;;
        modify KSig sig (set_function_class fc) ;;; intern E (NFunc None sig)) (fun _ _ => reads T G functions) (at_ T1 sg f n)).
      { intros x T1 HT. apply pw_bind. apply pw_text. destruct (is_empty T1); [exact I|].
        apply (take_class x (fun fc ttn => fsn <- (if contains fc FC_NoParameterList then intern E (NFSig fsig_default)
              else demangle_function_type E (K fu) (N.land fc (N.lor FC_Global FC_Static) =? 0)%N) ;;
        sig <- match ttn with Some ta => n <- res_ KFSig fsn ;; match n with NFSig f => intern E (NThunk f ta) | _ => panic end | None => ret fsn end ;;
        modify KSig sig (set_function_class fc) ;;; intern E (NFunc None sig))).
        - intros r fc -> Hn. apply pw_const. subst T. eapply (reads_intro _ _ _ (opt x (L "$$J0") ++ L "9") (_, _, _)); [rewrite <- app_assoc; reflexivity|]. apply fu_untyped.
        - intros ct c a this r fc ttn Hct -> Hn Hth. rewrite Hn, Hth. apply pw_fst. subst T. pose proof (class_len _ _ _ _ _ Hct).
          eapply pw_mono; [eapply (f_fn E Hout fu IHy this); [|do 2 eapply clean_app; exact Hcl|exact Hc]|].
          + lenn.
          + cbv beta. intros _ _ (t & y & G' & rest & -> & Hf). eapply (reads_intro _ _ _ (opt x (L "$$J0") ++ ct ++ t) (c, a, Some y)); [rewrite <- !app_assoc; reflexivity|].
            exact (fu_typed E x G ct c a this t y G' Hct Hf). }
      apply pw_eats.
      - intros T1 ->. apply (Hgo true). reflexivity.
      - intros _. apply (Hgo false). reflexivity.
    Qed.
    Lemma take_function T w sg f n G (Q : handle -> st -> Prop) : length T <= fu -> clean T -> ctx w sg f n G ->
      (forall t k a s G' rest h w' sg' f' n', T = t ++ rest -> clean rest -> length rest <= fu -> function E G t k a s G' -> ext w w' -> ext sg sg' -> ctx w' sg' f' n' G' ->
         funR E k a s (length sg) w' sg' h -> Q h (at_ rest sg' f' n')) ->
      pw (demangle_function_encoding E (K fu)) Q (at_ T sg f n).
    Proof.
      intros Hl Hcl Hc HQ. apply (take E Hout (fun fu => demangle_function_encoding E (K fu)) functions 0 (fun p => funR E (fst (fst p)) (snd (fst p)) (snd p))) with (w := w) (G := G);
        [|exact Hl|exact Hc|eapply f_function; eassumption|].
      - intros t p G' Hd B. apply (fw_function E B _ _ _ _ _ _ Hd).
      - intros t [[k a] s] G' rest h w' sg' f' n' HT Hd X1 S1 C1 R1. eapply HQ; eauto; subst T; [eapply clean_app; exact Hcl|lenn].
    Qed.

    (** ** Variables *)
    Definition variables (G : tab) (t : str) (p : option access * ty) (G' : tab) : Prop := variable E G t (fst p) (snd p) G'.
    Lemma take_pend T w sg f n G (Q : handle -> st -> Prop) : length T <= fu -> clean T -> ctx w sg f n G ->
      (forall t y G' rest a w' sg' f' n', T = t ++ rest -> clean rest -> length rest <= fu -> body E G t y G' -> ext w w' -> ext sg sg' -> ctx w' sg' f' n' G' -> pend E (length sg) w' sg' a y -> Q a (at_ rest sg' f' n')) ->
      pw (k_type (K fu) QDrop) Q (at_ T sg f n).
    Proof.
      intros Hl Hcl Hc HQ. apply (take E Hout (fun fu => k_type (K fu) QDrop) (body E) 0 (fun y n0 w' sg' h => pend E n0 w' sg' h y)) with (w := w) (G := G);
        [|exact Hl|exact Hc|eapply IHy; eassumption|].
      - intros t y G' Hd B. apply drop_at. apply fw_body. exact Hd.
      - intros t y G' rest h w' sg' f' n' HT Hd X1 S1 C1 R1. eapply HQ; eauto; subst T; [eapply clean_app; exact Hcl|lenn].
    Qed.
    Lemma f_variable : finds fu (sc <- demangle_variable_storage_class ;; demangle_variable_encoding E (K fu) sc) variables.
    Proof.
      intros T w sg f n G Hl Hcl Hc. apply pw_bind. apply pw_storage. intros l a sc T1 Hst ->. apply clean_cons in Hcl. unfold demangle_variable_encoding.
      apply pw_bind. eapply take_pend; [lenn|exact Hcl|exact Hc|]. intros t y G1 T2 h w1 sg1 f1 n1 -> Hcl1 Hl1 Hb X1 S1 C1 R1.
      destruct (pend_node _ _ _ _ _ _ R1) as (nd & A3 & A4). apply pw_bind. apply (pw_wp (okerr E 0)). eapply wp_resolve; [exact A3|exact A4|].
      assert (Hpl : (forall q k cl p, y <> TPtr q k cl p) -> pw (('(q, _) <- demangle_qualifiers ;; modify KType h (set_quals q)) ;;; intern E (NVar None (Some sc) (Some h)))
        (fun _ _ => reads (l :: t ++ T2) G variables) (at_ T2 sg1 f1 n1)).
      { intros Hy. apply pw_fst. apply pw_bind. apply pw_quals. intros m c v r ->. apply pw_const.
        eapply (reads_intro _ _ _ ([l] ++ t ++ [cv_code m c v]) (a, replace_quals (cvq c v) y)); [rewrite <- !app_assoc; reflexivity|]. exact (va_plain E G l a t y G1 m c v Hst Hb Hy). }
      destruct y as [q k|q k nm|q k cl p|q ds p|q cc rq ret ps va ne|q x];
        try (pose proof (pend_ptr E _ _ _ _ _ _ R1 A3 ltac:(discriminate)) as Hnp; destruct nd; try (apply Hpl; discriminate); exfalso; eapply Hnp; reflexivity).
      pose proof R1 as (B1 & B2 & cls & pt & B3 & B4 & B5 & B6). rewrite A3 in B3. injection B3 as ->.
      apply pw_fst. apply pw_bind. apply pw_ext. intros xp xr xu T3 ->. apply pw_bind. apply (pw_wp (okerr E (length sg1))).
      eapply (fresh_modify E _ _ _ _ _ _ _ _ _ _ _ (length sg) sg); [exact C1|split; [exact B1|split; [exact B2|exact A3]]|reflexivity|exact S1|lia|].
      intros C2 F2 S2 _ L2. cbn [append_quals node_quals map_quals] in *. apply pw_bind. apply (pw_wp (okerr E 0)). eapply wp_resolve; [apply F2|reflexivity|].
      apply pw_bind. apply pw_quals. intros m c v T4 ->. cbv iota beta. apply pw_fst. destruct cls as [hc|], cl as [cn|]; try contradiction B5.
      - apply pw_fst. apply clean_app, clean_cons in Hcl1. eapply pw_mono; [eapply (f_qname E Hout fu IHt IHp); [lenn|exact Hcl1|exact C2]|]. cbv beta.
        intros _ _ (t' & n' & G2 & rest & -> & Hq). eapply (reads_intro _ _ _ ([l] ++ t ++ ext_code xp xr xu ++ [cv_code m c v] ++ t') (a, TPtr (N.lor q (extq xp xr xu)) k (Some cn) (add_quals (cvq c v) p))); [rewrite <- !app_assoc; reflexivity|].
        exact (va_member_pointer E G l a t q k cn p G1 xp xr xu m c v t' n' G2 Hst Hb Hq).
      - apply pw_const. eapply (reads_intro _ _ _ ([l] ++ t ++ ext_code xp xr xu ++ [cv_code m c v]) (a, TPtr (N.lor q (extq xp xr xu)) k None (add_quals (cvq c v) p))); [rewrite <- !app_assoc; reflexivity|].
        exact (va_pointer E G l a t q k p G1 xp xr xu m c v Hst Hb).
    Qed.

    (** ** Names of symbols *)
    Lemma f_dsym : finds fu (demangle_unqualified_symbol_name E (K fu) NBB_Simple) (dsym E).
    Proof. exact (f_usn E fu IHr). Qed.
    Lemma take_dsym T w sg f n G (Q : handle -> st -> Prop) : length T <= fu -> clean T -> ctx w sg f n G ->
      (forall t i G' rest h w' sg' f' n', T = t ++ rest -> clean rest -> length rest <= fu -> dsym E G t i G' -> ext w w' -> ext sg sg' -> ctx w' sg' f' n' G' -> usymR E i (length sg) w' sg' h -> Q h (at_ rest sg' f' n')) ->
      pw (demangle_unqualified_symbol_name E (K fu) NBB_Simple) Q (at_ T sg f n).
    Proof.
      intros Hl Hcl Hc HQ. apply (take E Hout (fun fu => demangle_unqualified_symbol_name E (K fu) NBB_Simple) (dsym E) 0 (usymR E)) with (w := w) (G := G);
        [|exact Hl|exact Hc|eapply f_dsym; eassumption|].
      - intros t i G' Hd B. apply (fw_dsym E B _ _ _ _ Hd).
      - intros t y G' rest h w' sg' f' n' HT Hd X1 S1 C1 R1. eapply HQ; eauto; subst T; [eapply clean_app; exact Hcl|lenn].
    Qed.
    Definition some_type : ty := TPrim Q_None Void.
    Definition qsyms (G : tab) (t : str) (p : idk * list str * str) (G' : tab) : Prop :=
      exists n c G1, t = n ++ c /\ dsym E G n (fst (fst p)) G1 /\ chain E G1 c (snd (fst p)) G' /\ id_text E (fst (fst p)) (snd (fst p)) (Some some_type) (snd p).
    Lemma f_qsym : finds fu (demangle_fully_qualified_symbol_name E (K fu)) qsyms.
    Proof.
      intros T w sg f n G Hl Hcl Hc. unfold demangle_fully_qualified_symbol_name. apply pw_bind. eapply take_dsym; [exact Hl|exact Hcl|exact Hc|].
      intros t i G1 T1 id w1 sg1 f1 n1 -> Hcl1 Hl1 Hd X1 S1 C1 R1. apply pw_bind. eapply (take_chain E Hout fu IHt IHp); [exact Hl1|exact Hcl1|exact C1|].
      intros c ss G2 rest qn w2 sg2 f2 n2 -> _ Hch X2 S2 C2 (ch0 & hs & Q1 & Q2 & Q3 & Q4).
      assert (Hr : forall x, id_text E i ss (Some some_type) x -> reads (t ++ c ++ rest) G qsyms).
      { intros x Hx. eapply (reads_intro _ _ _ (t ++ c) (i, ss, x)); [rewrite <- app_assoc; reflexivity|]. exists t, c, G1. split; [reflexivity|]. split; [exact Hd|]. split; [exact Hch|exact Hx]. }
      destruct i as [x|d a|a].
      - apply pw_const. eapply Hr. constructor.
      - destruct R1 as (nd & F1 & tp & -> & Ht). eapply fresh_ext in F1; [|exact X2|exact S2]. pose proof F1 as (B1 & B2 & B3). pose proof Q1 as (_ & _ & B4). pose proof Q2 as (_ & _ & B5).
        apply pw_bind. apply (pw_wp (okerr E 0)). eapply wp_resolve; [exact B3|reflexivity|]. apply pw_bind. apply (pw_wp (okerr E 0)). eapply wp_resolve; [exact B4|reflexivity|].
        apply pw_bind. apply (pw_wp (okerr E 0)). eapply wp_resolve; [exact B5|reflexivity|]. destruct ss as [|s0 ss0] using rev_ind.
        + inversion Q4; subst hs. exact I.
        + apply pw_const. eapply Hr. constructor.
      - apply pw_const. eapply Hr. constructor.
    Qed.
    (** A conversion operator does not know its type yet. *)
    Definition nameC (i : idk) (n0 : nat) (w : world) (sg : store) (qn : handle) : Prop :=
      match i with
      | IConv _ => exists c hs id tp, fresh n0 w sg qn (NQual c) /\ fresh n0 w sg c (NNodes (hs ++ [id])) /\ fresh n0 w sg id (NConv tp None)
      | _ => True
      end.
    Lemma conv_at B G t a G1 c ss G2 : P_usym E B G t (IConv a) G1 -> P_chain E B G1 c ss G2 ->
      rd E B 0 (t ++ c) G G2 (fun fu => demangle_fully_qualified_symbol_name E (K fu)) (nameC (IConv a)).
    Proof.
      intros [Hl H1] H2 fu' rest w sg f n Hfu Hc HB. unfold demangle_fully_qualified_symbol_name. rewrite <- app_assoc.
      apply wp_bind. eapply wp_mono; [eapply H1; [lenn|exact Hc|lenn]|]. intros id s (w1 & sg1 & f1 & n1 & -> & X1 & S1 & L1 & C1 & R1).
      apply wp_bind. eapply wp_mono; [eapply (chain_at _ _ id); [exact H2|lenn|exact C1|lenn]|].
      intros qn s (w2 & sg2 & f2 & n2 & -> & X2 & S2 & L2 & C2 & ch0 & hs & Q1 & Q2 & Q3 & Q4).
      pose proof (ext_len _ _ S1) as E1. pose proof (ext_len _ _ S2) as E2. pose proof (ext_sub _ _ X2) as U2.
      assert (Q1' : fresh (length sg) w2 sg2 qn (NQual ch0)) by (eapply fresh_le; [|exact Q1]; lia).
      assert (Q2' : fresh (length sg) w2 sg2 ch0 (NNodes (hs ++ [id]))) by (eapply fresh_le; [|exact Q2]; lia).
      destruct R1 as (nd & F1 & tp & -> & Ht). eapply fresh_ext in F1; [|exact X2|exact S2].
      pose proof F1 as (B1 & B2 & B3). apply wp_bind. eapply wp_resolve; [exact B3|reflexivity|]. apply wp_ret.
      eapply fin_intro; [eapply ext_trans; eauto|eapply ext_trans; eauto|lenn|exact C2|]. exists ch0, hs, id, tp. auto.
    Qed.
    Lemma take_qsym T w sg f n G (Q : handle -> st -> Prop) : length T <= fu -> clean T -> ctx w sg f n G ->
      (forall t c i ss x G1 G' rest h w' sg' f' n', T = t ++ c ++ rest -> clean rest -> length rest <= fu -> dsym E G t i G1 -> chain E G1 c ss G' -> id_text E i ss (Some some_type) x ->
        ctx w' sg' f' n' G' -> nameC i (length sg) w' sg' h -> Q h (at_ rest sg' f' n')) ->
      pw (demangle_fully_qualified_symbol_name E (K fu)) Q (at_ T sg f n).
    Proof.
      intros Hl Hcl Hc HQ. apply (take E Hout (fun fu => demangle_fully_qualified_symbol_name E (K fu)) qsyms 0 (fun p => nameC (fst (fst p)))) with (w := w) (G := G);
        [|exact Hl|exact Hc|eapply f_qsym; eassumption|].
      - intros t [[i ss] x] G' (n0 & c & G1 & -> & Hd & Hch & Hx) B. cbn [fst snd] in *.
        assert (Hi : (exists a0, i = IConv a0) \/ forall n w sg qn, nameC i n w sg qn) by (destruct i; [right; constructor|right; constructor|left; eauto]).
        destruct Hi as [(a0 & ->)|Hi]; [eapply conv_at; [exact (fw_dsym E B _ _ _ _ Hd)|exact (fw_chain E B _ _ _ _ Hch)]|].
        intros fu' rest w' sg' f' n' A1 A2 A3. eapply wp_mono; [exact (qualified_at E B _ _ _ _ _ _ _ _ _ (fw_dsym E B _ _ _ _ Hd) (fw_chain E B _ _ _ _ Hch) Hx fu' rest w' sg' f' n' A1 A2 A3)|].
        intros h s (w2 & sg2 & f2 & n2 & -> & X2 & S2 & L2 & C2 & _). eapply fin_intro; eauto.
      - intros t [[i ss] x] G' rest h w' sg' f' n' HT (n0 & c & G1 & -> & Hd & Hch & Hx) X1 S1 C1 R1. cbn [fst snd] in *. rewrite <- app_assoc in HT.
        eapply HQ; eauto; subst T; [do 2 eapply clean_app; exact Hcl|lenn].
    Qed.

    (** ** Declarators *)
    Inductive dcl := DV (n c v : str) (i : idk) (a : option access) (y : ty) (ss : list str) (x : str) | DF (n c v : str) (i : idk) (k : fn_class) (a : adjustment) (s : option ty) (ss : list str) (x : str).
    Inductive decl : tab -> str -> dcl -> tab -> Prop :=
    | dc_var G n i G1 c ss G2 v a y G3 x : dsym E G n i G1 -> chain E G1 c ss G2 -> variable E G2 v a y G3 -> id_text E i ss None x -> decl G (n ++ c ++ v) (DV n c v i a y ss x) G3
    | dc_fun G n i G1 c ss G2 v k a sig G3 x : dsym E G n i G1 -> chain E G1 c ss G2 -> function E G2 v k a sig G3 -> id_text E i ss (ret_of sig) x -> decl G (n ++ c ++ v) (DF n c v i k a sig ss x) G3.
    (** A conversion operator without a type. *)
    Lemma conv_fails qn c hs id tp h nd sg f n rest (Q : handle -> st -> Prop) : nth_error sg qn = Some (NQual c) -> nth_error sg c = Some (NNodes (hs ++ [id])) -> nth_error sg id = Some (NConv tp None) ->
      nth_error sg h = Some nd -> is_sym nd = true ->
      pw (modify KSym h (set_sym_name qn) ;;; o <- unqualified_identifier qn ;; uqn <- ok_or o InvalidDeclarator ;;
        n <- res_ KIdent uqn ;; match n with NConv _ None => fail InvalidDeclarator | _ => ret h end) Q (at_ rest sg f n).
    Proof.
      intros H1 H2 H3 H4 H5. eapply pw_step.
      { unfold modify. change (s_store (at_ rest sg f n)) with sg. unfold resolve. rewrite H4. cbn [hkind]. rewrite H5. rewrite upd_lset. reflexivity. }
      change (set_store ?z (at_ rest sg f n)) with (at_ rest z f n).
      assert (Ho : forall j nj, nth_error sg j = Some nj -> is_sym nj = false -> nth_error (lset sg h (set_sym_name qn nd)) j = Some nj).
      { intros j nj Hj Hn. rewrite lset_other; [exact Hj|]. intros ->. congruence. }
      eapply pw_step; [eapply unq_eq; [apply Ho; [exact H1|reflexivity]|apply Ho; [exact H2|reflexivity]|apply Ho; [exact H3|reflexivity]|reflexivity]|].
      eapply pw_step; [reflexivity|]. apply pw_bind. apply (pw_wp (okerr E 0)). eapply wp_resolve; [apply Ho; [exact H3|reflexivity]|reflexivity|]. exact I.
    Qed.
    Lemma retext i ss r x r' : id_text E i ss r x -> (r' = None -> forall a, i <> IConv a) -> exists x', id_text E i ss r' x'.
    Proof.
      intros H Hc. destruct H; try (eexists; constructor). destruct r' as [r'|]; [eexists; constructor|]. exfalso. eapply Hc; reflexivity.
    Qed.
    Lemma take_variable hd qn T w sg f n G (Q : handle -> st -> Prop) : first_char T = Some hd -> one_of (L "01234") hd = true -> length T <= fu -> clean T -> ctx w sg f n G ->
      (forall t a y G' rest h w' sg' f' n', T = t ++ rest -> variable E G t a y G' -> ext w w' -> ext sg sg' -> ctx w' sg' f' n' G' -> varR E a y (length sg) w' sg' h -> Q h (at_ rest sg' f' n')) ->
      pw (demangle_encoded_symbol E (K fu) qn) Q (at_ T sg f n).
    Proof.
      intros Hhd Hone Hl Hcl Hc HQ. apply (take E Hout (fun fu => demangle_encoded_symbol E (K fu) qn) variables 0 (fun p => varR E (fst p) (snd p))) with (w := w) (G := G); [|exact Hl|exact Hc| |].
      - intros t p G' Hd B. apply (fw_variable E B _ _ _ _ _ Hd).
      - unfold demangle_encoded_symbol. apply pw_bind. apply pw_text. rewrite Hhd. eapply pw_step; [reflexivity|]. rewrite Hone. eapply f_variable; eassumption.
      - intros t [a y] G' rest h w' sg' f' n' HT Hd X1 S1 C1 R1. eapply HQ; eauto.
    Qed.
    Lemma f_declarator : finds fu (demangle_declarator E (K fu)) decl.
    Proof.
      intros T w sg f n G Hl Hcl Hc. unfold demangle_declarator. apply pw_bind. eapply take_qsym; [exact Hl|exact Hcl|exact Hc|].
      intros t c i ss x G1 G2 T1 qn w1 sg1 f1 n1 -> Hcl1 Hl1 Hd Hch Hx C1 R1.
      destruct (first_char T1) as [hd|] eqn:Hhd.
      2: { apply pw_bind. unfold demangle_encoded_symbol. apply pw_bind. apply pw_text. rewrite Hhd. apply pw_bind. exact I. }
      apply pw_bind. destruct (one_of (L "01234") hd) eqn:Hone.
      - eapply take_variable; [exact Hhd|exact Hone|exact Hl1|exact Hcl1|exact C1|]. intros v a y G3 rest h w2 sg2 f2 n2 -> Hv X2 S2 C2 (sc & vt & R2 & _).
        assert (Hi : (exists a0, i = IConv a0) \/ forall a0, i <> IConv a0) by (destruct i; [right; discriminate|right; discriminate|left; eauto]).
        destruct Hi as [(a0 & ->)|Hi].
        + destruct R1 as (c0 & hs & id & tp & A1 & A2 & A3). eapply fresh_ext in A1, A2, A3; [|exact X2|exact S2|exact X2|exact S2|exact X2|exact S2].
          eapply conv_fails; [apply A1|apply A2|apply A3|apply R2|reflexivity].
        + apply pw_const. destruct (retext _ _ _ _ None Hx (fun _ => Hi)) as (x' & Hx').
          eapply (reads_intro _ _ _ (t ++ c ++ v)); [rewrite <- !app_assoc; reflexivity|]. eapply dc_var; eassumption.
      - unfold demangle_encoded_symbol. apply pw_bind. apply pw_text. rewrite Hhd. eapply pw_step; [reflexivity|]. rewrite Hone.
        apply pw_bind. eapply take_function; [exact Hl1|exact Hcl1|exact C1|]. intros v k a s G3 rest h w2 sg2 f2 n2 -> Hcl2 Hl2 Hf X2 S2 C2 (sh & R2 & R3).
        assert (Hi : ((exists a0, i = IConv a0) /\ ret_of s = None) \/ (ret_of s = None -> forall a0, i <> IConv a0)).
        { destruct i; [right; discriminate|right; discriminate|]. destruct (ret_of s); [right; discriminate|left; eauto]. }
        destruct Hi as [[(a0 & ->) Hs]|Hi].
        + destruct R1 as (c0 & hs & id & tp & A1 & A2 & A3). eapply fresh_ext in A1, A2, A3; [|exact X2|exact S2|exact X2|exact S2|exact X2|exact S2].
          apply pw_bind. apply (pw_wp (okerr E 0)). eapply wp_resolve; [apply R2|reflexivity|]. destruct (DF_ret _ _ _ _ _ _ R3) as (sn & N1 & N2 & N3). rewrite Hs in N3.
          destruct (sig_return sn) as [|] eqn:Hsr; [contradiction|].
          apply pw_bind. apply (pw_wp (okerr E 0)). eapply wp_resolve; [eapply ctx_get; [exact C2|exact N1]|exact N2|].
          eapply pw_step; [eapply unq_eq; [apply A1|apply A2|apply A3|reflexivity]|]. eapply pw_step; [reflexivity|]. rewrite Hsr.
          apply pw_bind. apply (pw_wp (okerr E 0)). eapply same_modify; [apply A3|reflexivity|reflexivity|]. apply pw_ret.
          eapply conv_fails; [apply A1|apply A2|apply A3|apply R2|reflexivity].
        + apply pw_any. intros ? ?. destruct (retext _ _ _ _ (ret_of s) Hx Hi) as (x' & Hx').
          apply pw_const. eapply (reads_intro _ _ _ (t ++ c ++ v)); [rewrite <- !app_assoc; reflexivity|]. eapply dc_fun; eassumption.
    Qed.
    Definition declR (d : dcl) (n0 : nat) (w : world) (sg : store) (h : handle) : Prop :=
      match d with DV _ _ _ _ a y ss x => vdeclR E a y ss x n0 w sg h | DF _ _ _ _ k a s ss x => fdeclR E k a s ss x n0 w sg h end.
    Lemma take_declarator T w sg f n G (Q : handle -> st -> Prop) : length T <= fu -> clean T -> ctx w sg f n G ->
      (forall t d G' rest h w' sg' f' n', T = t ++ rest -> clean rest -> length rest <= fu -> decl G t d G' -> ctx w' sg' f' n' G' -> declR d (length sg) w' sg' h -> Q h (at_ rest sg' f' n')) ->
      pw (demangle_declarator E (K fu)) Q (at_ T sg f n).
    Proof.
      intros Hl Hcl Hc HQ. apply (take E Hout (fun fu => demangle_declarator E (K fu)) decl 0 declR) with (w := w) (G := G); [|exact Hl|exact Hc|eapply f_declarator; eassumption|].
      - intros t d G' Hd B. destruct Hd as [G0 n0 i G1 c ss G2 v a y G3 x D1 D2 D3 D4|G0 n0 i G1 c ss G2 v k a s G3 x D1 D2 D3 D4]; cbn [declR].
        + exact (vdecl_at E B _ _ _ _ _ _ _ _ _ _ _ _ (fw_dsym E B _ _ _ _ D1) (fw_chain E B _ _ _ _ D2) (fw_variable E B _ _ _ _ _ D3) D4).
        + exact (fdecl_at E B _ _ _ _ _ _ _ _ _ _ _ _ _ (fw_dsym E B _ _ _ _ D1) (fw_chain E B _ _ _ _ D2) (fw_function E B _ _ _ _ _ _ D3) D4).
      - intros t d G' rest h w' sg' f' n' HT Hd X1 S1 C1 R1. eapply HQ; eauto; subst T; [eapply clean_app; exact Hcl|lenn].
    Qed.

    (** ** Special symbols *)
    Lemma chain_of nd A (k : handle -> handle -> M A) (P : Prop) T w sg f n G : length T <= fu -> clean T -> ctx w sg f n G ->
      (forall c ss G' rest id qn w' sg' f' n', T = c ++ rest -> clean rest -> length rest <= fu -> chain E G c ss G' -> ctx w' sg' f' n' G' -> pw (k id qn) (fun _ _ => P) (at_ rest sg' f' n')) ->
      pw (id <- intern E nd ;; qn <- demangle_name_scope_chain E (K fu) id ;; k id qn) (fun _ _ => P) (at_ T sg f n).
    Proof.
      intros Hl Hcl Hc Hk. apply pw_bind. eapply (pw_new E Hout); [exact Hc|]. intros C1. apply pw_bind.
      eapply (take_chain E Hout fu IHt IHp); [exact Hl|exact Hcl|exact C1|]. intros c ss G' rest qn w' sg' f' n' HT Hcl' Hch X1 S1 C2 _.
      eapply Hk; [exact HT|exact Hcl'| |exact Hch|exact C2]. subst T. lenn.
    Qed.
    Ltac rin t := eapply (reads_intro _ _ _ t (_, _)); [rewrite <- ?app_assoc; reflexivity|].
    Lemma f_table k kk nm T w sg f n G : In (k, nm) table_codes -> (match kk with SVftable => ret (L "`vftable'") | SVbtable => ret (L "`vbtable'") | SLocalVftable => ret (L "`local vftable'")
        | SRttiCompleteObjLocator => ret (L "`RTTI Complete Object Locator'") | _ => fail InvalidSpecialTableSymbolNode end = (ret nm : M str)) -> length T <= fu -> clean T -> ctx w sg f n G ->
      pw (demangle_special_table_symbol_node E (K fu) kk) (fun _ _ => reads (L "??" ++ k ++ T) G (symbols E)) (at_ T sg f n).
    Proof.
      intros Hk Hkk Hl Hcl Hc. unfold demangle_special_table_symbol_node. rewrite Hkk. eapply pw_step; [reflexivity|].
      eapply chain_of; [exact Hl|exact Hcl|exact Hc|]. intros c ss G' rest id qn w' sg' f' n' -> Hcl' Hl' Hch C1.
      apply pw_bind. apply pw_eatif; [|intros _; apply pw_bind; exact I]. intros far T1 -> Hfar. eapply pw_step; [reflexivity|].
      assert (Hin : In far (L "67")).
      { change ((far =? ch "6")%N || ((far =? ch "7")%N || false) = true) in Hfar. destruct (N.eqb_spec far (ch "6")) as [->|_]; [left; reflexivity|].
        destruct (N.eqb_spec far (ch "7")) as [->|_]; [right; left; reflexivity|discriminate Hfar]. }
      apply pw_bind. apply pw_quals. intros m qc qv T2 ->. cbv iota beta. apply pw_bind. do 2 apply clean_cons in Hcl'. apply pw_eat.
      - intros T3 ->. apply pw_const. rin (L "??" ++ k ++ c ++ [far; cv_code m qc qv] ++ L "@"). exact (sy_table E G k nm c ss G' far m qc qv Hk Hch Hin).
      - intros _. apply pw_fst. apply pw_fst. eapply pw_mono; [eapply (f_qname E Hout fu IHt IHp); [lenn|exact Hcl'|exact C1]|]. cbv beta.
        intros _ _ (t & nn & G2 & rest & -> & Hq). rin (L "??" ++ k ++ c ++ [far; cv_code m qc qv] ++ t). exact (sy_table_for E G k nm c ss G' far m qc qv t nn G2 Hk Hch Hin Hq).
    Qed.
    Lemma f_untyped k nm T w sg f n G : In (k, nm) rtti_codes -> length T <= fu -> clean T -> ctx w sg f n G ->
      pw (demangle_untyped_variable E (K fu) nm) (fun _ _ => reads (L "??" ++ k ++ T) G (symbols E)) (at_ T sg f n).
    Proof.
      intros Hk Hl Hcl Hc. unfold demangle_untyped_variable. eapply chain_of; [exact Hl|exact Hcl|exact Hc|]. intros c ss G' rest id qn w' sg' f' n' -> Hcl' Hl' Hch C1.
      apply pw_bind. apply pw_eat; [|intros _; exact I]. intros r ->. apply pw_const. rin (L "??" ++ k ++ c ++ L "8"). exact (sy_rtti E G k nm c ss G' Hk Hch).
    Qed.
    Lemma pw_to_u32 x e (Q : N -> st -> Prop) s : ((x < 2 ^ 32)%N -> Q x s) -> pw (to_u32 x e) Q s.
    Proof. intros H. unfold to_u32. change two32 with (2 ^ 32)%N. apply pw_if; [|intros _; exact I]. intros Hx. apply N.ltb_lt in Hx. apply pw_ret. auto. Qed.
    Lemma pw_to_i32 x e (Q : Z -> st -> Prop) s : ((- 2 ^ 31 <= x < 2 ^ 31)%Z -> Q x s) -> pw (to_i32 x e) Q s.
    Proof.
      intros H. unfold to_i32. apply pw_if; [|intros _; exact I]. intros Hx. apply andb_true_iff in Hx. destruct Hx as [H1 H2]. apply Z.leb_le in H1. apply Z.ltb_lt in H2. apply pw_ret. apply H. lia.
    Qed.
    Lemma f_base_descriptor T w sg f n G : length T <= fu -> clean T -> ctx w sg f n G ->
      pw (demangle_rtti_base_class_descriptor_node E (K fu)) (fun _ _ => reads (L "??_R1" ++ T) G (symbols E)) (at_ T sg f n).
    Proof.
      intros Hl Hcl Hc. unfold demangle_rtti_base_class_descriptor_node.
      apply pw_bind. apply pw_unsigned. intros t1 v1 T1 N1 ->. apply pw_bind. apply pw_to_u32. intros B1.
      apply pw_bind. apply pw_signed. intros t2 v2 T2 N2 ->. apply pw_bind. apply pw_to_i32. intros B2.
      apply pw_bind. apply pw_unsigned. intros t3 v3 T3 N3 ->. apply pw_bind. apply pw_to_u32. intros B3.
      apply pw_bind. apply pw_unsigned. intros t4 v4 T4 N4 ->. apply pw_bind. apply pw_to_u32. intros B4.
      do 4 apply clean_app in Hcl. eapply chain_of; [lenn|exact Hcl|exact Hc|]. intros c ss G' rest id qn w' sg' f' n' -> Hcl' Hl' Hch C1.
      apply pw_bind. apply pw_expect. intros r ->. apply pw_const. rin (L "??_R1" ++ t1 ++ t2 ++ t3 ++ t4 ++ c ++ L "8").
      exact (sy_base_descriptor E G t1 v1 t2 v2 t3 v3 t4 v4 c ss G' N1 N2 N3 N4 B1 B2 B3 B4 Hch).
    Qed.
    Lemma pw_kept {A} (m : M A) t sg f n (Q : A -> st -> Prop) : keeps m -> (forall a sg' f' n', Q a (at_ t sg' f' n')) -> pw m Q (at_ t sg f n).
    Proof.
      intros Hm HQ. eapply pw_mono; [apply Hm|]. cbv beta. intros a s Hs. rewrite (kept_at t s); [apply HQ|]. exact Hs.
    Qed.
    Lemma f_vcall T w sg f n G : length T <= fu -> clean T -> ctx w sg f n G ->
      pw (demangle_vcall_thunk_node E (K fu)) (fun _ _ => reads (L "??_9" ++ T) G (symbols E)) (at_ T sg f n).
    Proof.
      intros Hl Hcl Hc. unfold demangle_vcall_thunk_node. eapply chain_of; [exact Hl|exact Hcl|exact Hc|]. intros c ss G' rest id qn w' sg' f' n' -> Hcl' Hl' Hch C1.
      apply pw_bind. apply pw_expects. intros T1 ->. apply pw_bind. apply pw_unsigned. intros t off T2 Hn ->. apply pw_bind. apply pw_kept; [apply keeps_modify|]. intros _ sg2 f2 n2.
      apply pw_bind. apply pw_expect. intros T3 ->. apply pw_bind. apply pw_cc. intros l cc T4 Hcc ->. apply pw_const.
      rin (L "??_9" ++ c ++ L "$B" ++ t ++ L "A" ++ [l]). exact (sy_vcall E G c ss G' t off l cc Hch Hn Hcc).
    Qed.

    (** Forms that must end with the text. *)
    Inductive final : tab -> str -> Prop :=
    | fi_typeinfo G t y G' : rtype E G t y G' -> final G (L "." ++ t)
    | fi_descriptor G t y G' : rtype E G t y G' -> final G (L "??_R0" ++ t ++ L "@8")
    | fi_guard G (thread : bool) c ss G1 (visible : bool) : chain E G c ss G1 -> final G (guard_code thread ++ c ++ (if visible then L "5" else L "4IA")).
    Lemma f_guard thread T w sg f n G : length T <= fu -> clean T -> ctx w sg f n G ->
      pw (demangle_local_static_guard E (K fu) thread) (fun _ s => reads (guard_code thread ++ T) G (symbols E) \/ (final G (guard_code thread ++ T) /\ ended s)) (at_ T sg f n).
    Proof.
      intros Hl Hcl Hc. unfold demangle_local_static_guard. apply pw_bind. eapply (pw_new E Hout); [exact Hc|]. intros C1. apply pw_bind.
      eapply (take_chain E Hout fu IHt IHp); [exact Hl|exact Hcl|exact C1|]. intros c ss G' rest qn w' sg' f' n' -> Hcl' Hch X1 S1 C2 _.
      assert (Hgo : forall (visible : bool) T1, rest = (if visible then L "5" else L "4IA") ++ T1 ->
        pw (s <- text ;; (if is_empty s then ret tt else n <- demangle_unsigned ;; i <- to_u32 n InvalidLocalStaticGuard ;; modify KLsg (length sg) (set_scope_index i)) ;;; intern E (NLsgVar qn visible))
          (fun _ s => reads (guard_code thread ++ c ++ rest) G (symbols E) \/ (final G (guard_code thread ++ c ++ rest) /\ ended s)) (at_ T1 sg' f' n')).
      { intros visible T1 ->. apply pw_bind. apply pw_text. destruct T1 as [|x T1]; cbn [is_empty].
        - eapply pw_step; [reflexivity|]. apply pw_intern. right. split; [|reflexivity]. rewrite app_nil_r. eapply fi_guard. exact Hch.
        - eapply pw_mono with (Q := fun _ _ => reads (guard_code thread ++ c ++ (if visible then L "5" else L "4IA") ++ x :: T1) G (symbols E)); [|auto]. apply pw_fst.
          apply pw_bind. apply pw_unsigned. intros t i T2 Hn ->. apply pw_bind. apply pw_to_u32. intros Hi. apply pw_const.
          rin (guard_code thread ++ c ++ (if visible then L "5" else L "4IA") ++ t). exact (sy_guard E G thread c ss G' visible t i Hch Hn Hi). }
      apply pw_bind. apply pw_eats.
      - intros T1 ->. eapply pw_step; [reflexivity|]. apply (Hgo false). reflexivity.
      - intros _. apply pw_bind. apply pw_bind. apply pw_eat; [|intros _; exact I]. intros T1 ->. apply pw_ret. apply (Hgo true). reflexivity.
    Qed.
    Lemma f_descriptor T w sg f n G : length T <= fu -> clean T -> ctx w sg f n G ->
      pw (rtti_type_descriptor E (K fu)) (fun _ s => final G (L "??_R0" ++ T) /\ ended s) (at_ T sg f n).
    Proof.
      intros Hl Hcl Hc. unfold rtti_type_descriptor. apply pw_bind. eapply (take_rtype E Hout fu IHy); [exact Hl|exact Hcl|exact Hc|].
      intros t y G' rest a w' sg' f' n' -> _ _ Hr C1 _. apply pw_bind. apply pw_expects. intros r ->. apply pw_bind. apply pw_text. destruct r as [|x r]; [|exact I]. cbn [is_empty].
      eapply pw_kept; [keep|]. intros _ sg2 f2 n2. split; [|reflexivity]. rewrite app_nil_r. eapply fi_descriptor. exact Hr.
    Qed.
    Lemma f_typeinfo T w sg f n G : length T <= S fu -> clean T -> ctx w sg f n G ->
      pw (demangle_typeinfo_name E (K fu)) (fun _ s => final G T /\ ended s) (at_ T sg f n).
    Proof.
      intros Hl Hcl Hc. unfold demangle_typeinfo_name. apply pw_bind. apply pw_expect. intros T1 ->. apply clean_cons in Hcl. apply pw_bind. eapply (take_rtype E Hout fu IHy); [lenn|exact Hcl|exact Hc|].
      intros t y G' rest a w' sg' f' n' -> _ _ Hr C1 _. apply pw_bind. apply pw_text. destruct rest as [|x r]; [|exact I]. cbn [is_empty].
      eapply pw_kept; [keep|]. intros _ sg2 f2 n2. split; [|reflexivity]. rewrite app_nil_r. eapply fi_typeinfo. exact Hr.
    Qed.
    (** Initializers and destructors. *)
    Lemma dsym_plain G t i G' : dsym E G t i G' -> first_is_not "?"%char t -> usym E G t i G'.
    Proof. intros H Hq. destruct H as [G t i G' H|G c H]; [exact H|]. exfalso. eapply Hq. reflexivity. Qed.
    Lemma f_dynamic d T w sg f n G : length T <= fu -> clean T -> ctx w sg f n G ->
      pw (demangle_init_fini_stub E (K fu) d) (fun _ _ => reads (dynamic_code d ++ T) G (symbols E)) (at_ T sg f n).
    Proof.
      intros Hl Hcl Hc. unfold demangle_init_fini_stub. apply pw_bind.
      assert (Hgo : forall (known : bool) T1, T = opt known (L "?") ++ T1 -> (known = false -> starts (ch "?") T1 = false) ->
        pw (sym <- demangle_declarator E (K fu) ;; n <- res_ KSym sym ;;
          match n with
          | NVar _ _ _ => (if known : bool then expect_str (L "@@") InvalidInitFiniStub else expect_char (ch "@") InvalidInitFiniStub) ;;;
            fsn <- demangle_function_encoding E (K fu) ;; d <- intern E (NDyn None (DVariable sym) d) ;; name <- synthesize_from_id E d ;; modify KFunc fsn (set_func_name name) ;;; ret fsn
          | NFunc fname _ => if known : bool then fail InvalidInitFiniStub else
              qn <- ok_or fname InvalidInitFiniStub ;; d <- intern E (NDyn None (DName qn) d) ;; name <- synthesize_from_id E d ;; modify KFunc sym (set_func_name name) ;;; ret sym
          | _ => fail InvalidInitFiniStub
          end) (fun _ _ => reads (dynamic_code d ++ T) G (symbols E)) (at_ T1 sg f n)).
      { intros known T1 HT Hq. apply pw_bind. rewrite HT in Hcl, Hl. eapply take_declarator; [lenn|eapply clean_app; exact Hcl|exact Hc|].
        intros t dd G' rest h w' sg' f' n' -> Hcl' Hl' Hd C1 R1. destruct Hd as [G0 n0 i G1 c ss G2 v a y G3 x D1 D2 D3 D4|G0 n0 i G1 c ss G2 v k a s G3 x D1 D2 D3 D4]; cbn [declR] in R1;
          (assert (Hq' : known = false -> first_is_not "?"%char n0) by (intros Hk r0 ->; specialize (Hq Hk); cbn in Hq; discriminate Hq)).
        - destruct R1 as (qn & sc & vt & _ & F1 & _). apply pw_bind. apply (pw_wp (okerr E 0)). eapply wp_resolve; [apply F1|reflexivity|]. cbv iota.
          assert (Hf : forall T2, rest = (if known then L "@@" else L "@") ++ T2 -> 
            pw (fsn <- demangle_function_encoding E (K fu) ;; d <- intern E (NDyn None (DVariable h) d) ;; name <- synthesize_from_id E d ;; modify KFunc fsn (set_func_name name) ;;; ret fsn)
             (fun _ _ => reads (dynamic_code d ++ T) G0 (symbols E)) (at_ T2 sg' f' n')).
          { intros T2 Hr. apply pw_fst. eapply pw_mono; [eapply f_function; [|eapply clean_app; rewrite Hr in Hcl'; exact Hcl'|exact C1]|].
            - rewrite Hr in Hl'. destruct known; lenn.
            - cbv beta. intros _ _ (u & [[k a'] s'] & G4 & rest' & -> & Hf). 
              eapply (reads_intro _ _ _ (dynamic_code d ++ opt known (L "?") ++ n0 ++ c ++ v ++ (if known then L "@@" else L "@") ++ u) (_, _)); [rewrite HT, Hr, <- !app_assoc; reflexivity|].
              exact (sy_dynamic_variable E G0 d known n0 i G1 c ss G2 v a y G3 x u k a' s' G4 D1 Hq' D2 D3 D4 Hf). }
          apply pw_bind. destruct known; [apply pw_expects|apply pw_expect]; intros T2 HT2; apply Hf; exact HT2.
        - destruct R1 as (qn & sh & _ & F1 & _). apply pw_bind. apply (pw_wp (okerr E 0)). eapply wp_resolve; [apply F1|reflexivity|]. destruct known; [exact I|]. apply pw_const.
          specialize (Hq' eq_refl). cbn [opt app] in HT. subst T. rin (dynamic_code d ++ n0 ++ c ++ v).
          exact (sy_dynamic E G0 d n0 i G1 c ss G2 v k a s G3 x (dsym_plain _ _ _ _ D1 Hq') Hq' D2 D3 D4). }
      apply pw_eat.
      - intros T1 ->. apply (Hgo true); [reflexivity|discriminate].
      - intros Hs. apply (Hgo false); [reflexivity|auto].
    Qed.

    (** ** Whole symbols *)
    Lemma unnamed_cases c : In c unnamed_codes -> In c free_codes \/ c = L "_R" \/ In (L "?" ++ c) (map fst special_table).
    Proof.
      intros [<-|H]; [auto|]. apply in_app_or in H. destruct H as [H|H]; [|auto]. right. right. cases H; subst c; cbn; tauto.
    Qed.
    Lemma special_R d : In d (L "01234") -> In (L "?_R" ++ [d]) (map fst special_table).
    Proof. intros H. cases H; subst d; cbn; tauto. Qed.
    Lemma f_ordinary T w sg f n G : length T <= fu -> clean T -> ctx w sg f n G -> Forall (fun p => strip_prefix p T = None) (map fst special_table) ->
      pw (demangle_declarator E (K fu)) (fun _ _ => reads (L "?" ++ T) G (symbols E)) (at_ T sg f n).
    Proof.
      intros Hl Hcl Hc Hs. rewrite Forall_forall in Hs.
      assert (Hno : forall p r, In p (map fst special_table) -> T <> p ++ r) by (intros p r Hp; apply strip_none; auto). clear Hs.
      eapply pw_mono; [eapply f_declarator; eassumption|]. cbv beta. intros _ _ (t & d & G' & rest & -> & Hd).
      destruct Hd as [G0 n0 i G1 c ss G2 v a y G3 x D1 D2 D3 D4|G0 n0 i G1 c ss G2 v k a s G3 x D1 D2 D3 D4]; (destruct D1 as [G0 t i G1 D1|G0 c0 Hc0]; [|
        assert (HR : c0 = L "_R" -> forall d r, In d (L "01234") -> c <> d :: r) by (intros -> d r Hin ->; refine (Hno _ ((r ++ v) ++ rest) (special_R d Hin) _); rewrite <- !app_assoc; reflexivity);
        destruct (unnamed_cases _ Hc0) as [Hc1|[->|Hc1]]]).
      - rin (L "?" ++ t ++ c ++ v). exact (sy_variable E G0 t i G1 c ss G2 v a y G3 x D1 D2 D3 D4).
      - rin (L "?" ++ (L "?" ++ c0) ++ c ++ v). exact (sy_variable E G0 (L "?" ++ c0) (IText []) G0 c ss G2 v a y G3 x (us_unnamed E _ _ Hc1) D2 D3 D4).
      - rin (L "?" ++ L "?_R" ++ c ++ v). inversion D4; subst. exact (sy_variable_R E G0 c ss G2 v a y G3 D2 (HR eq_refl) D3).
      - exfalso. eapply Hno; [exact Hc1|]. rewrite <- !app_assoc. reflexivity.
      - rin (L "?" ++ t ++ c ++ v). exact (sy_function E G0 t i G1 c ss G2 v k a s G3 x D1 D2 D3 D4).
      - rin (L "?" ++ (L "?" ++ c0) ++ c ++ v). exact (sy_function E G0 (L "?" ++ c0) (IText []) G0 c ss G2 v k a s G3 x (us_unnamed E _ _ Hc1) D2 D3 D4).
      - rin (L "?" ++ L "?_R" ++ c ++ v). inversion D4; subst. exact (sy_function_R E G0 c ss G2 v k a s G3 D2 (HR eq_refl) D3).
      - exfalso. eapply Hno; [exact Hc1|]. rewrite <- !app_assoc. reflexivity.
    Qed.
    Lemma f_parse T w sg f n G : length T <= S fu -> clean T -> ctx w sg f n G ->
      pw (k_parse (K (S fu))) (fun _ s => reads T G (symbols E) \/ (md5_here T \/ literal_here E T \/ (final G T /\ ended s))) (at_ T sg f n).
    Proof.
      intros Hl Hcl Hc. cbn [knot_of k_parse]. unfold do_parse. apply pw_bind. apply pw_text. destruct (starts_with (L ".") T) eqn:H1.
      { eapply pw_mono; [eapply f_typeinfo; eassumption|]. auto. }
      destruct (starts_with (L "??@") T) eqn:H2.
      { clear H2. unfold demangle_md5_name. apply pw_bind. apply pw_text. apply pw_bind. apply pw_expects. intros r ->. apply pw_bind. apply pw_text. apply pw_bind.
        apply pw_ok_or. intros pos Hp. apply find_char_spec in Hp. destruct Hp as (a & b & -> & _ & Hin). apply pw_any. intros _ s.
        assert (Hk : md5_key a) by (split; [apply clean_app in Hcl; eapply clean_front; exact Hcl|exact Hin]).
        destruct (strip_prefix locator b) as [b'|] eqn:Hb.
        - left. apply strip_prefix_spec in Hb. subst b. eapply (reads_intro _ _ _ (md5_text a ++ locator) (_, _)); [unfold md5_text; rewrite <- !app_assoc; reflexivity|].
          exact (sy_md5 E G a Hk).
        - right. left. exists a, b. split; [unfold md5_text; rewrite <- !app_assoc; reflexivity|]. split; [exact Hk|]. intros z Hz. revert Hb. rewrite Hz, strip_app. discriminate. }
      apply pw_bind. apply pw_expect. intros T1 ->. apply pw_bind. unfold demangle_special_intrinsic. apply pw_bind. apply pw_special.
      - intros p k r Hin ->.
        assert (Hgo : forall m : M handle, pw m (fun _ s => reads (ch "?" :: p ++ r) G (symbols E) \/ (md5_here (ch "?" :: p ++ r) \/ literal_here E (ch "?" :: p ++ r) \/ (final G (ch "?" :: p ++ r) /\ ended s))) (at_ r sg f n) ->
          pw (h <- m ;; ret (Some h)) (fun a s' => pw (match a with Some h => ret h | None => demangle_declarator E (K fu) end) (fun _ s => reads (ch "?" :: p ++ r) G (symbols E) \/ (md5_here (ch "?" :: p ++ r) \/ literal_here E (ch "?" :: p ++ r) \/ (final G (ch "?" :: p ++ r) /\ ended s))) s') (at_ r sg f n)).
        { intros m Hm. apply pw_bind. eapply pw_mono; [exact Hm|]. cbv beta. intros a s H. apply pw_ret. apply pw_ret. exact H. }
        assert (Hleft : forall m : M handle, pw m (fun _ _ => reads (ch "?" :: p ++ r) G (symbols E)) (at_ r sg f n) -> pw m (fun _ s => reads (ch "?" :: p ++ r) G (symbols E) \/ (md5_here (ch "?" :: p ++ r) \/ literal_here E (ch "?" :: p ++ r) \/ (final G (ch "?" :: p ++ r) /\ ended s))) (at_ r sg f n)).
        { intros m Hm. eapply pw_mono; [exact Hm|]. auto. }
        assert (Hl' : length r <= fu) by lenn. assert (Hcl' : clean r) by (apply clean_cons, clean_app in Hcl; exact Hcl).
        cases Hin; injection Hin as <- <-; cbv iota; apply Hgo.
        + apply Hleft. eapply (f_table (L "_7") SVftable (L "`vftable'")); [cbn; tauto|reflexivity|exact Hl'|exact Hcl'|exact Hc].
        + apply Hleft. eapply (f_table (L "_8") SVbtable (L "`vbtable'")); [cbn; tauto|reflexivity|exact Hl'|exact Hcl'|exact Hc].
        + apply Hleft. eapply f_vcall; eassumption.
        + exact I.
        + eapply pw_mono; [eapply (f_guard false); eassumption|]. cbv beta. intros ? ? H. tauto.
        + apply (pw_literal _ _ _ _ _ _ Hout). intros u x y trunc k rest Hx -> _ _. apply pw_any. intros ? ?. right. right. left.
          exists (L "??_C" ++ u), x, rest. split; [reflexivity|exact Hx].
        + exact I.
        + eapply pw_mono; [eapply f_descriptor; eassumption|]. intros a s H. right. right. right. exact H.
        + apply Hleft. eapply f_base_descriptor; eassumption.
        + apply Hleft. eapply (f_untyped (L "_R2")); [cbn; tauto|exact Hl'|exact Hcl'|exact Hc].
        + apply Hleft. eapply (f_untyped (L "_R3")); [cbn; tauto|exact Hl'|exact Hcl'|exact Hc].
        + apply Hleft. eapply (f_table (L "_R4") SRttiCompleteObjLocator (L "`RTTI Complete Object Locator'")); [cbn; tauto|reflexivity|exact Hl'|exact Hcl'|exact Hc].
        + apply Hleft. eapply (f_table (L "_S") SLocalVftable (L "`local vftable'")); [cbn; tauto|reflexivity|exact Hl'|exact Hcl'|exact Hc].
        + apply Hleft. eapply (f_dynamic false); eassumption.
        + apply Hleft. eapply (f_dynamic true); eassumption.
        + eapply pw_mono; [eapply (f_guard true); eassumption|]. cbv beta. intros ? ? H. tauto.
      - intros Hs. apply pw_ret. eapply pw_mono; [eapply f_ordinary; [lenn|eapply clean_cons; exact Hcl|exact Hc|exact Hs]|]. cbv beta. intros ? ? H. left. exact H.
    Qed.
    Lemma parse_next : good_parse E (S fu).
    Proof.
      intros T w sg f n G Hl Hcl Hc. eapply pw_mono; [eapply f_parse; eassumption|]. cbv beta. intros _ s [H|[H|[H|[_ H]]]]; auto.
    Qed.
  End At.

  Lemma all_good fu : good_tinst E fu /\ good_parse E fu /\ good_type E fu /\ good_raw E fu.
  Proof.
    induction fu as [|fu (IHt & IHp & IHy & IHr)].
    - split; [intros ? ? ? ? ? ? ? ? ?; exact I|]. split; [intros ? ? ? ? ? ? ? ? ?; exact I|]. split; [|intros ? ? ? ? ? ? ? ? ?; exact I].
      split; [|split]; intros ? ? ? ? ? ? ? ? ?; exact I.
    - split; [eapply tinst_next; eassumption|]. split; [eapply parse_next; eassumption|]. split; [eapply type_next; eassumption|eapply raw_next; eassumption].
  Qed.
  Lemma parse_reads fu T w sg f n G : length T <= fu -> clean T -> ctx w sg f n G ->
    pw (k_parse (K fu)) (fun _ s => reads T G (symbols E) \/ (md5_here T \/ literal_here E T \/ (final G T /\ ended s))) (at_ T sg f n).
  Proof.
    destruct fu as [|fu]; intros Hl Hcl Hc; [exact I|]. destruct (all_good fu) as (IHt & IHp & IHy & IHr). eapply f_parse; eassumption.
  Qed.
End Syms.
