(** The round trip: special symbols.  Proof infrastructure for [Trip]. *)
From Verif Require Import Parser Utf8 Show Den Emit Grammar Lex Step Number Pend ReadAt Round RoundNames RoundTypes RoundBody RoundArgs RoundSyms.

(** [clash a b]: the texts differ inside their common length. *)
Fixpoint clash (a b : str) : bool :=
  match a, b with x :: a, y :: b => negb (x =? y)%N || clash a b | _, _ => false end.
Lemma clash_strip a : forall b r, clash a b = true -> strip_prefix a (b ++ r) = None.
Proof.
  induction a as [|x a IH]; intros [|y b] r H; try discriminate. cbn in *. destruct (x =? y)%N; [apply IH; exact H|reflexivity].
Qed.
Fixpoint apart (l : list (str * sik)) : bool :=
  match l with [] => true | (p, _) :: l => forallb (fun q => clash p (fst q)) l && apart l end.
Lemma special_in' l p k r sg f n : apart l = true -> In (p, k) l -> consume_special l (at_ (p ++ r) sg f n) = Ok (Some k, at_ r sg f n).
Proof.
  induction l as [|[q j] l IH]; intros Ha Hin; [contradiction|]. cbn [apart] in Ha. apply andb_true_iff in Ha as [H1 H2]. cbn [consume_special].
  destruct Hin as [Heq|Hin].
  - injection Heq as -> ->. rewrite (bind_eq _ _ _ _ _ (eats_yes _ _ _ _ _)). reflexivity.
  - rewrite forallb_forall in H1. specialize (H1 _ Hin). cbn [fst] in H1.
    rewrite (bind_eq _ _ _ _ _ (eats_no _ _ _ _ _ (clash_strip _ _ _ H1))). apply IH; assumption.
Qed.
Lemma special_in p k r sg f n : In (p, k) special_table -> consume_special special_table (at_ (p ++ r) sg f n) = Ok (Some k, at_ r sg f n).
Proof. apply special_in'. vm_compute. reflexivity. Qed.
Lemma tname_head E G t x G' : tname E G t x G' -> starts (ch "@") t = false /\ forall r, starts (ch "@") (t ++ r) = false.
Proof.
  assert (Hh : forall c r, c <> ch "@" -> starts (ch "@") (c :: r) = false) by (intros c r Hc; cbn; apply N.eqb_neq; exact Hc).
  intros [G0 i y Hi Hy|G0 y Hy|G0 y Hy|G0 t0 y Ht].
  - assert (digit_char i <> ch "@") by (unfold digit_char; change (ch "0") with 48%N; change (ch "@") with 64%N; lia). split; intros; apply Hh; assumption.
  - destruct (ident_head y Hy) as (c & r0 & -> & _ & _ & Hc). destruct Hy as (_ & Hin & _). assert (c <> ch "@") by (intros ->; apply Hin; left; reflexivity).
    split; intros; apply Hh; assumption.
  - split; intros; reflexivity.
  - destruct Ht. split; intros; reflexivity.
Qed.
Lemma qname_head E G t x G' r : qname E G t x G' -> starts (ch "@") (t ++ r) = false.
Proof. intros [G0 t0 y G1 t' xs G2 Ht Hc]. rewrite <- app_assoc. apply (tname_head _ _ _ _ _ Ht). Qed.

Section Specials.
  Variable E : env.
  Variable B : nat.
  Notation DT w := (dty E (cnt w) w).
  Notation DS w := (dstr E (cnt w) w).
  Notation DF w := (dfn E (cnt w) w).
  Notation okerr := (okerr E B).
  Notation ctx := (ctx E).
  Notation K := (knot_of E).
  Notation rd := (rd E B).
  Notation fin := (fin E).
  Notation P_chain := (P_chain E B).
  Notation P_qname := (P_qname E B).
  Notation P_usym := (P_usym E B).
  Notation P_symbol := (P_symbol E B).
  Notation symR := (symR E).
  Notation chainR := (chainR E).
  Notation dsh := (dsh E).
  Notation nameX := (nameX E).
  Notation Xpost := (Xpost E).
  Notation P_variable := (P_variable E B).
  Notation P_function := (P_function E B).

  Definition special_body (fu : nat) (k : sik) : M handle :=
    match k with
    | SStringLiteralSymbol => demangle_string_literal E
    | SVftable | SVbtable | SLocalVftable | SRttiCompleteObjLocator => demangle_special_table_symbol_node E (K fu) k
    | SVcallThunk => demangle_vcall_thunk_node E (K fu)
    | SLocalStaticGuard => demangle_local_static_guard E (K fu) false
    | SLocalStaticThreadGuard => demangle_local_static_guard E (K fu) true
    | SRttiTypeDescriptor => rtti_type_descriptor E (K fu)
    | SRttiBaseClassArray => demangle_untyped_variable E (K fu) (L "`RTTI Base Class Array'")
    | SRttiClassHierarchyDescriptor => demangle_untyped_variable E (K fu) (L "`RTTI Class Hierarchy Descriptor'")
    | SRttiBaseClassDescriptor => demangle_rtti_base_class_descriptor_node E (K fu)
    | SDynamicInitializer => demangle_init_fini_stub E (K fu) false
    | SDynamicAtexitDestructor => demangle_init_fini_stub E (K fu) true
    | STypeof | SUdtReturning => fail InvalidSpecialIntrinsic
    end.
  Lemma parse_special p k fu r sg f n e (Q : handle -> st -> Prop) : In (p, k) special_table ->
    wp e (special_body fu k) Q (at_ r sg f n) -> wp e (k_parse (K (S fu))) Q (at_ (ch "?" :: p ++ r) sg f n).
  Proof.
    intros Hp H. cbn [knot_of k_parse]. unfold do_parse. eapply wp_step; [apply text_at|].
    assert (Hs : starts_with (L ".") (ch "?" :: p ++ r) = false /\ starts_with (L "??@") (ch "?" :: p ++ r) = false).
    { cbn in Hp. repeat (destruct Hp as [Hp|Hp]; [injection Hp as <- <-; split; reflexivity|]). contradiction. }
    destruct Hs as [-> ->]. eapply wp_step; [apply expect_yes|]. unfold demangle_special_intrinsic. apply wp_bind.
    eapply wp_step; [apply special_in; exact Hp|]. cbv iota.
    apply wp_bind. eapply wp_mono; [exact H|]. intros h s HQ. apply wp_ret. apply wp_ret. exact HQ.
  Qed.

  (** An identifier and the scopes around it. *)
  Definition chain0 (id : handle) (nd : node) (ss : list str) n0 w (sg : store) qn : Prop :=
    fresh n0 w sg id nd /\ exists c hs, fresh n0 w sg qn (NQual c) /\ fresh n0 w sg c (NNodes (hs ++ [id])) /\ c <> qn /\ Forall2 (DS w KIdent) hs ss.
  Lemma chain0_name id nd ss x n0 w sg qn : chain0 id nd ss n0 w sg qn -> is_ident nd = true -> dsh w nd x -> nameX (Xpost x) ss x n0 w sg qn.
  Proof.
    intros (H1 & c & hs & H2 & H3 & H4 & H5) Hi Hd. exists id, c, hs, nd. split; [exact H2|]. split; [exact H3|]. split; [exact H4|]. split; [exact H5|].
    split; [apply H1|]. split; [exact Hi|]. right. split; [exact H1|exact Hd].
  Qed.
  Lemma chain0_upd id nd nd' ss n0 w sg qn : chain0 id nd ss n0 w sg qn -> is_ident nd = true -> chain0 id nd' ss n0 w (lset sg id nd') qn.
  Proof.
    intros (H1 & c & hs & H2 & H3 & H4 & H5) Hi.
    assert (Ho : forall j nj, fresh n0 w sg j nj -> is_ident nj = false -> fresh n0 w (lset sg id nd') j nj).
    { intros j nj (F1 & F2 & F3) Hj. split; [exact F1|]. split; [exact F2|]. rewrite lset_other; [exact F3|]. intros ->. destruct H1 as (_ & _ & H1). congruence. }
    split; [|exists c, hs; auto 6].
    destruct H1 as (F1 & F2 & F3). split; [exact F1|]. split; [exact F2|]. apply lset_same. apply nth_error_Some. congruence.
  Qed.
  Lemma chain0_ext id nd ss n0 w sg qn w' sg' : ext w w' -> ext sg sg' -> chain0 id nd ss n0 w sg qn -> chain0 id nd ss n0 w' sg' qn.
  Proof.
    intros Hw Hs (H1 & c & hs & H2 & H3 & H4 & H5). split; [eapply fresh_ext; eauto|]. exists c, hs. split; [eapply fresh_ext; eauto|]. split; [eapply fresh_ext; eauto|].
    split; [exact H4|]. eapply forall2_ds; [apply ext_sub; exact Hw|exact H5].
  Qed.
  Lemma chain0_at nd A (k : handle -> handle -> M A) (Q : A -> st -> Prop) G c ss G' fu rest w sg f n :
    P_chain G c ss G' -> length c <= fu -> ctx w sg f n G -> length sg + 1 + 2 * length c <= B ->
    (forall id qn w' sg' f' n', ext w w' -> ext sg sg' -> length sg' <= length sg + 1 + 2 * length c -> ctx w' sg' f' n' G' ->
       chain0 id nd ss (length sg) w' sg' qn -> wp okerr (k id qn) Q (at_ rest sg' f' n')) ->
    wp okerr (id <- intern E nd ;; qn <- demangle_name_scope_chain E (K fu) id ;; k id qn) Q (at_ (c ++ rest) sg f n).
  Proof.
    intros Hch Hfu Hc HB Hk. apply wp_bind. eapply wp_new_hidden; [exact Hc|lia|]. intros C1.
    pose proof (fresh_new w sg nd (ctx_len _ _ _ _ _ _ Hc)) as F1.
    apply wp_bind. eapply wp_mono; [eapply (chain_at _ _ (length sg)); [exact Hch|exact Hfu|exact C1|rewrite app_length; cbn [length]; lia]|].
    intros qn s (w2 & sg2 & f2 & n2 & -> & X2 & S2 & L2 & C2 & ch0 & hs & Q1 & Q2 & Q3 & Q4). rewrite app_length in *. cbn [length] in *.
    eapply Hk; [eapply ext_trans; [apply ext_app|exact X2]|eapply ext_trans; [apply ext_app|exact S2]|lia|exact C2|].
    split; [eapply fresh_ext; eauto|]. exists ch0, hs. split; [eapply fresh_le; [|exact Q1]; lia|]. split; [eapply fresh_le; [|exact Q2]; lia|]. auto.
  Qed.
  (** The last node: a symbol with that name. *)
  Lemma close_at nd X x ss w sg w1 sg1 f1 n1 G qn rest M : length w = length sg -> ctx w1 sg1 f1 n1 G ->
    ext w w1 -> ext sg sg1 -> length sg1 + 1 <= M -> M <= B -> nameX (Xpost x) ss x (length sg) w1 sg1 qn ->
    is_sym nd = true -> sym_name nd = Some qn ->
    (forall w', sub w1 w' -> DS w' KQual qn (qualified (ss ++ [x])) -> dsh w' nd X) ->
    wp okerr (intern E nd) (fin w sg M rest G (fun w' _ h => symR X x w' h)) (at_ rest sg1 f1 n1).
  Proof.
    intros Hl Hc Hw Hs HM HB Hn Hy Hsn HX. pose proof (ext_len _ _ Hs). eapply wp_new_hidden; [exact Hc|lia|]. intros C2.
    pose proof (fresh_new w1 sg1 nd (ctx_len _ _ _ _ _ _ Hc)) as F2. eapply fresh_le in F2; [|exact H].
    assert (Hn2 : nameX (Xpost x) ss x (length sg) (w1 ++ [None]) (sg1 ++ [nd]) qn).
    { eapply (nameX_ext E (Xpost x)); [intros ? ? ? Hu HX'; exact (Xpost_sub E x _ _ _ Hu HX')|apply ext_app|apply ext_app|exact Hn]. }
    assert (HX2 : forall w', sub (w1 ++ [None]) w' -> DS w' KQual qn (qualified (ss ++ [x])) -> dsh w' nd X).
    { intros w' Hs' Hd. apply HX; [|exact Hd]. eapply sub_trans; [apply sub_app|exact Hs']. }
    destruct (seal E w (length sg) (w1 ++ [None]) (sg1 ++ [nd]) f1 n1 G ss x qn (length sg1) nd X C2 Hn2 F2 Hy Hsn HX2) as (w3 & X3 & _ & C3 & R3);
      [lia|eapply ext_trans; [exact Hw|apply ext_app]|].
    eapply fin_intro; [exact X3|eapply ext_trans; [exact Hs|apply ext_app]|rewrite app_length; cbn [length]; lia|exact C3|exact R3].
  Qed.
  Lemma named_dsh' w x : ustr x -> dsh w (NNamed None x) x.
  Proof. apply named_dsh. Qed.

  (** ** Tables *)
  Lemma table_at k nm G c ss G1 far m qc qv t tn G2 fu rest w sg f n : In (k, nm) table_codes -> P_chain G c ss G1 -> In far (L "67") ->
    length c + length t <= fu -> ctx w sg f n G -> length sg + 2 * (2 + length c + length t) <= B ->
    (forall sg f n, (t = L "@" /\ tn = None /\ G2 = G1) \/ (exists nn, tn = Some nn /\ P_qname G1 t nn G2 /\
      eat_char (ch "@") (at_ (t ++ rest) sg f n) = Ok (false, at_ (t ++ rest) sg f n))) ->
    wp okerr (k_parse (K (S fu))) (fin w sg (length sg + 2 * (2 + length c + length t)) rest G2
      (fun w' _ h => symR (show_table E (cvq qc qv) (qualified (ss ++ [nm])) tn) nm w' h)) (at_ (ch "?" :: ch "?" :: k ++ c ++ far :: cv_code m qc qv :: t ++ rest) sg f n).
  Proof.
    intros Hk Hch Hfar Hfu Hc HB Ht.
    assert (Hsp : exists kk, In (ch "?" :: k, kk) special_table /\
      special_body fu kk = demangle_special_table_symbol_node E (K fu) kk /\
      match kk with SVftable => ret (L "`vftable'") | SVbtable => ret (L "`vbtable'") | SLocalVftable => ret (L "`local vftable'")
        | SRttiCompleteObjLocator => ret (L "`RTTI Complete Object Locator'") | _ => fail InvalidSpecialTableSymbolNode end = (ret nm : M str) /\ ustr nm).
    { cbn in Hk. destruct Hk as [Hk|[Hk|[Hk|[Hk|[]]]]]; injection Hk as <- <-;
        [exists SVftable|exists SVbtable|exists SLocalVftable|exists SRttiCompleteObjLocator];
        (split; [cbn; tauto|]); (split; [reflexivity|]); (split; [reflexivity|repeat constructor]). }
    destruct Hsp as (kk & Hin & Hb & Hnm & Hu).
    change (ch "?" :: k ++ ?y) with ((ch "?" :: k) ++ y). eapply parse_special; [exact Hin|]. rewrite Hb.
    unfold demangle_special_table_symbol_node. rewrite Hnm. eapply wp_step; [reflexivity|].
    eapply chain0_at; [exact Hch|lia|exact Hc|lia|]. intros id qn w1 sg1 f1 n1 X1 S1 L1 C1 R1.
    eapply wp_step; [apply eatif_yes; destruct Hfar as [<-|[<-|[]]]; reflexivity|]. eapply wp_step; [reflexivity|].
    eapply wp_step; [apply quals_at|]. cbv iota beta.
    assert (Hn1 : nameX (Xpost nm) ss nm (length sg) w1 sg1 qn) by (eapply chain0_name; [exact R1|reflexivity|apply named_dsh; exact Hu]).
    destruct (Ht sg1 f1 n1) as [(-> & -> & ->)|(nn & -> & [Hlq Hq] & He)].
    - change (L "@" ++ rest) with (ch "@" :: rest). eapply wp_step; [apply eat_yes|]. eapply wp_step; [reflexivity|]. cbn [length L] in *.
      eapply close_at; [eapply ctx_len; exact Hc|exact C1|exact X1|exact S1|lia|lia|exact Hn1|reflexivity|reflexivity|].
      intros w' Hs Hd. exists (qualified (ss ++ [nm])), None. split; [exact Hd|]. split; [exact I|reflexivity].
    - eapply wp_step; [exact He|]. apply wp_bind. apply wp_bind. eapply wp_mono; [eapply Hq; [lia|exact C1|lia]|].
      intros th s (w2 & sg2 & f2 & n2 & -> & X2 & S2 & L2 & C2 & R2). apply wp_ret.
      eapply close_at; [eapply ctx_len; exact Hc|exact C2|eapply ext_trans; eauto|eapply ext_trans; eauto|lia|lia| |reflexivity|reflexivity|].
      + eapply nameX_ext; [|exact X2|exact S2|exact Hn1]. intros ? ? ? ?. apply Xpost_sub. assumption.
      + intros w' Hs Hd. exists (qualified (ss ++ [nm])), (Some nn). split; [exact Hd|]. split; [|reflexivity]. cbn [opt_rel]. eapply DS_sub; [exact Hs|]. exact R2.
  Qed.
  Lemma c_sy_table G k nm c ss G1 far m qc qv : In (k, nm) table_codes -> P_chain G c ss G1 -> In far (L "67") ->
    P_symbol G (L "??" ++ k ++ c ++ [far; cv_code m qc qv] ++ L "@") (show_table E (cvq qc qv) (qualified (ss ++ [nm])) None) nm G1.
  Proof.
    intros Hk Hch Hfar. split; [eexists; reflexivity|]. intros fu rest w sg f n Hfu Hc HB. destruct fu as [|fu]; [len|].
    rewrite <- !app_assoc. change (L "??" ++ ?y) with (ch "?" :: ch "?" :: y). cbn [app].
    eapply wp_mono; [eapply (table_at k nm G c ss G1 far m qc qv (L "@") None G1); [exact Hk|exact Hch|exact Hfar|len|exact Hc|len|intros; left; auto]|].
    intros h s HQ. eapply fin_mono; [exact HQ|apply ext_refl|apply ext_refl|len|auto].
  Qed.
  Lemma c_sy_table_for G k nm c ss G1 far m qc qv t tn G2 : In (k, nm) table_codes -> P_chain G c ss G1 -> In far (L "67") -> P_qname G1 t tn G2 ->
    (forall r, starts (ch "@") (t ++ r) = false) ->
    P_symbol G (L "??" ++ k ++ c ++ [far; cv_code m qc qv] ++ t) (show_table E (cvq qc qv) (qualified (ss ++ [nm])) (Some tn)) nm G2.
  Proof.
    intros Hk Hch Hfar Hq Hh. split; [eexists; reflexivity|]. intros fu rest w sg f n Hfu Hc HB. destruct fu as [|fu]; [len|].
    rewrite <- !app_assoc. change (L "??" ++ ?y) with (ch "?" :: ch "?" :: y). cbn [app].
    eapply wp_mono; [eapply (table_at k nm G c ss G1 far m qc qv t (Some tn) G2); [exact Hk|exact Hch|exact Hfar|len|exact Hc|len|]|].
    - intros sg0 f0 n0. right. exists tn. split; [reflexivity|]. split; [exact Hq|]. apply eat_no. apply Hh.
    - intros h s HQ. eapply fin_mono; [exact HQ|apply ext_refl|apply ext_refl|len|auto].
  Qed.

  (** ** RTTI data *)
  Lemma qvar_at nd x ss id w sg w1 sg1 f1 n1 G qn rest M : length w = length sg -> ctx w1 sg1 f1 n1 G ->
    ext w w1 -> ext sg sg1 -> length sg1 + 1 <= M -> M <= B -> chain0 id nd ss (length sg) w1 sg1 qn -> is_ident nd = true -> (forall w, dsh w nd x) ->
    wp okerr (intern E (NVar (Some (VQualified qn)) None None)) (fin w sg M rest G (fun w' _ h => symR (qualified (ss ++ [x])) x w' h)) (at_ rest sg1 f1 n1).
  Proof.
    intros Hl Hc Hw Hs HM HB Hn Hi Hd. eapply close_at; [exact Hl|exact Hc|exact Hw|exact Hs|exact HM|exact HB| |reflexivity|reflexivity|].
    - eapply chain0_name; [exact Hn|exact Hi|apply Hd].
    - intros w' _ H. exact H.
  Qed.
  Lemma c_sy_rtti G k nm c ss G1 : In (k, nm) rtti_codes -> P_chain G c ss G1 ->
    P_symbol G (L "??" ++ k ++ c ++ L "8") (qualified (ss ++ [nm])) nm G1.
  Proof.
    intros Hk Hch. split; [eexists; reflexivity|]. intros fu rest w sg f n Hfu Hc HB. destruct fu as [|fu]; [len|].
    rewrite <- !app_assoc. change (L "??" ++ ?y) with (ch "?" :: ch "?" :: y). cbn [app].
    assert (Hsp : exists kk, In (ch "?" :: k, kk) special_table /\ special_body fu kk = demangle_untyped_variable E (K fu) nm /\ ustr nm).
    { cbn in Hk. destruct Hk as [Hk|[Hk|[]]]; injection Hk as <- <-; [exists SRttiBaseClassArray|exists SRttiClassHierarchyDescriptor];
        (split; [cbn; tauto|]); (split; [reflexivity|repeat constructor]). }
    destruct Hsp as (kk & Hin & Hb & Hu).
    change (ch "?" :: k ++ ?y) with ((ch "?" :: k) ++ y). eapply parse_special; [exact Hin|]. rewrite Hb. unfold demangle_untyped_variable.
    eapply chain0_at; [exact Hch|len|exact Hc|len|]. intros id qn w1 sg1 f1 n1 X1 S1 L1 C1 R1. change (L "8" ++ rest) with (ch "8" :: rest).
    eapply wp_step; [apply eat_yes|]. cbv iota.
    eapply qvar_at; [eapply ctx_len; exact Hc|exact C1|exact X1|exact S1|len|len|exact R1|reflexivity|]. intros w'. apply named_dsh. exact Hu.
  Qed.
  Lemma c_sy_base_descriptor G t1 nv t2 vbptr t3 vbt t4 fl c ss G1 : num_text t1 nv -> signed_number t2 vbptr -> num_text t3 vbt -> num_text t4 fl ->
      (nv < 2 ^ 32)%N -> (- 2 ^ 31 <= vbptr < 2 ^ 31)%Z -> (vbt < 2 ^ 32)%N -> (fl < 2 ^ 32)%N -> P_chain G c ss G1 ->
      P_symbol G (L "??_R1" ++ t1 ++ t2 ++ t3 ++ t4 ++ c ++ L "8")
        (qualified (ss ++ [base_descriptor_text nv vbptr vbt fl])) (base_descriptor_text nv vbptr vbt fl) G1.
  Proof.
    intros N1 N2 N3 N4 B1 B2 B3 B4 Hch. split; [eexists; reflexivity|]. intros fu rest w sg f n Hfu Hc HB. destruct fu as [|fu]; [len|].
    rewrite <- !app_assoc. change (L "??_R1" ++ ?y) with (ch "?" :: L "?_R1" ++ y).
    eapply parse_special; [cbn; right; right; right; right; right; right; right; right; auto 20|]. cbn [special_body]. unfold demangle_rtti_base_class_descriptor_node.
    assert (Hu : forall v e s, (v < 2 ^ 32)%N -> to_u32 v e s = Ok (v, s)).
    { intros v e s Hv. unfold to_u32. change two32 with (2 ^ 32)%N. apply N.ltb_lt in Hv. rewrite Hv. reflexivity. }
    eapply wp_step; [apply unsigned_at; exact N1|]. eapply wp_step; [apply Hu; exact B1|].
    eapply wp_step; [apply signed_at; exact N2|].
    eapply wp_step; [unfold to_i32; replace (_ && _) with true; [reflexivity|]; symmetry; apply andb_true_intro; split; [apply Z.leb_le|apply Z.ltb_lt]; lia|].
    eapply wp_step; [apply unsigned_at; exact N3|]. eapply wp_step; [apply Hu; exact B3|].
    eapply wp_step; [apply unsigned_at; exact N4|]. eapply wp_step; [apply Hu; exact B4|].
    eapply chain0_at; [exact Hch|len|exact Hc|len|]. intros id qn w1 sg1 f1 n1 X1 S1 L1' C1 R1. change (L "8" ++ rest) with (ch "8" :: rest).
    eapply wp_step; [apply expect_yes|].
    eapply qvar_at; [eapply ctx_len; exact Hc|exact C1|exact X1|exact S1|len|len|exact R1|reflexivity|]. intros w'. reflexivity.
  Qed.

  (** ** Guards of local statics *)
  Lemma c_sy_guard G thread c ss G1 (visible : bool) t i : P_chain G c ss G1 -> num_text t i -> (i < 2 ^ 32)%N ->
    P_symbol G (guard_code thread ++ c ++ (if visible then L "5" else L "4IA") ++ t) (qualified (ss ++ [guard_text thread i])) (guard_text thread i) G1.
  Proof.
    intros Hch Hn Hi. split; [destruct thread; eexists; reflexivity|]. intros fu rest w sg f n Hfu Hc HB.
    assert (Hgl : 4 <= length (guard_code thread)) by (destruct thread; cbn; lia). destruct fu as [|fu]; [len|].
    rewrite <- !app_assoc.
    assert (Hsp : exists p kk, guard_code thread = ch "?" :: p /\ In (p, kk) special_table /\ special_body fu kk = demangle_local_static_guard E (K fu) thread).
    { destruct thread; [exists (L "?__J"), SLocalStaticThreadGuard|exists (L "?_B"), SLocalStaticGuard]; (split; [reflexivity|]); (split; [cbn; tauto|reflexivity]). }
    destruct Hsp as (p & kk & Hp & Hin & Hb). rewrite Hp in Hfu, HB, Hgl |- *. cbn [app]. eapply parse_special; [exact Hin|]. rewrite Hb. clear Hb. unfold demangle_local_static_guard.
    eapply chain0_at; [exact Hch|len|exact Hc|len|]. intros id qn w1 sg1 f1 n1 X1 S1 L1' C1 R1.
    assert (Hv : forall A (kk : bool -> M A) Q, wp okerr (kk visible) Q (at_ (t ++ rest) sg1 f1 n1) ->
      wp okerr (v4 <- eat_str (L "4IA") ;; visible <- (if v4 then ret false else v5 <- eat_char (ch "5") ;; if v5 then ret true else fail InvalidLocalStaticGuard) ;; kk visible) Q
        (at_ ((if visible then L "5" else L "4IA") ++ t ++ rest) sg1 f1 n1)).
    { intros A k0 Q0 H0. destruct visible.
      - eapply wp_step; [apply eats_no; reflexivity|]. cbv iota. change (L "5" ++ ?y) with (ch "5" :: y). apply wp_bind.
        eapply wp_step; [apply eat_yes|]. apply wp_ret. exact H0.
      - eapply wp_step; [apply eats_yes|]. eapply wp_step; [reflexivity|]. exact H0. }
    apply Hv. clear Hv. eapply wp_step; [apply text_at|].
    assert (He : is_empty (t ++ rest) = false) by (pose proof (num_len _ _ Hn) as Hl; destruct t; [cbn in Hl; lia|reflexivity]). rewrite He.
    apply wp_bind. eapply wp_step; [apply unsigned_at; exact Hn|].
    eapply wp_step; [unfold to_u32; change two32 with (2 ^ 32)%N; apply N.ltb_lt in Hi; rewrite Hi; reflexivity|].
    eapply (fresh_modify E B _ _ _ _ _ _ _ _ _ _ (length sg) sg); [exact C1|apply R1|reflexivity|exact S1|lia|].
    intros C2 F2 S2 _ L2. cbn [set_scope_index] in *.
    pose proof (chain0_upd _ _ (NLsg None thread i) _ _ _ _ _ R1 eq_refl) as R2.
    pose proof (num_len _ _ Hn) as Hl.
    eapply close_at; [eapply ctx_len; exact Hc|exact C2|exact X1|exact S2|len|len| |reflexivity|reflexivity|].
    - eapply chain0_name; [exact R2|reflexivity|reflexivity].
    - intros w' _ H. exact H.
  Qed.

  (** ** Thunks for virtual calls *)
  Lemma c_sy_vcall G c ss G1 t off l cc : P_chain G c ss G1 -> num_text t off -> cc_code l cc ->
      P_symbol G (L "??_9" ++ c ++ L "$B" ++ t ++ L "A" ++ [l])
        (show_function E (FnClass None false false false) (VirtualCall cc) None (qualified (ss ++ [vcall_text E off]))) (vcall_text E off) G1.
  Proof.
    intros Hch Hn Hcc. split; [eexists; reflexivity|]. intros fu rest w sg f n Hfu Hc HB. destruct fu as [|fu]; [len|].
    rewrite <- !app_assoc. change (L "??_9" ++ ?y) with (ch "?" :: L "?_9" ++ y).
    eapply parse_special; [cbn; auto 20|]. cbn [special_body]. unfold demangle_vcall_thunk_node.
    eapply chain0_at; [exact Hch|len|exact Hc|len|]. intros id qn w1 sg1 f1 n1 X1 S1 L1' C1 R1.
    eapply wp_step; [apply expects_yes|]. eapply wp_step; [apply unsigned_at; exact Hn|]. apply wp_bind.
    eapply (fresh_modify E B _ _ _ _ _ _ _ _ _ _ (length sg) sg); [exact C1|apply R1|reflexivity|exact S1|lia|].
    intros C2 F2 S2 _ L2. cbn [set_vcall_offset] in *.
    pose proof (chain0_upd _ _ (NVcall None off) _ _ _ _ _ R1 eq_refl) as R2. set (sg2 := lset sg1 id (NVcall None off)) in *.
    change (L "A" ++ [l] ++ rest) with (ch "A" :: l :: rest). eapply wp_step; [apply expect_yes|]. eapply wp_step; [apply cc_at; exact Hcc|].
    pose proof (num_len _ _ Hn) as Hl. pose proof (ext_len _ _ S1).
    apply wp_bind. eapply wp_new_known; [exact C2|len|]. intros C3 M3.
    eapply close_at; [eapply ctx_len; exact Hc|exact C3|eapply ext_trans; [exact X1|apply ext_app]|eapply ext_trans; [exact S2|apply ext_app]|len|len| |reflexivity|reflexivity|].
    - eapply chain0_name; [eapply chain0_ext; [apply ext_app|apply ext_app|exact R2]|reflexivity|reflexivity].
    - intros w' Hs Hd. exists (FnClass None false false false), (VirtualCall cc), None, (qualified (ss ++ [vcall_text E off])). split; [|split; [exact Hd|reflexivity]].
      eapply DF_sub; [exact Hs|]. eapply more_DF; [exact M3|]. eexists. split; [|split; [eexists; split; [reflexivity|]|]]; cbn; repeat split.
  Qed.

  (** ** Initializers and destructors of globals *)
  (** The name made of a single node. *)
  Lemma synth_at nd x w sg w1 sg1 f1 n1 G rest (Q : handle -> st -> Prop) : length w = length sg -> ctx w1 sg1 f1 n1 G -> ext w w1 -> ext sg sg1 -> length sg1 + 3 <= B ->
    is_ident nd = true -> dsh w1 nd x ->
    (forall qn w' sg', ext w1 w' -> ext sg1 sg' -> length sg' = length sg1 + 3 -> ctx w' sg' f1 n1 G -> nameX (Xpost x) [] x (length sg) w' sg' qn ->
      Q qn (at_ rest sg' f1 n1)) ->
    wp okerr (d <- intern E nd ;; synthesize_from_id E d) Q (at_ rest sg1 f1 n1).
  Proof.
    intros Hl Hc Hw Hs HB Hi Hd HQ. pose proof (ext_len _ _ Hs) as Hle. pose proof (ctx_len _ _ _ _ _ _ Hc) as Hl1.
    apply wp_bind. eapply wp_new_hidden; [exact Hc|lia|]. intros C1. pose proof (fresh_new w1 sg1 nd Hl1) as F1.
    unfold synthesize_from_id. apply wp_bind. eapply wp_new_hidden; [exact C1|rewrite app_length; cbn; lia|]. intros C2.
    pose proof (fresh_new _ _ (NNodes [length sg1]) (ctx_len _ _ _ _ _ _ C1)) as F2.
    eapply wp_new_hidden; [exact C2|rewrite !app_length; cbn; lia|]. intros C3.
    pose proof (fresh_new _ _ (NQual (length (sg1 ++ [nd]))) (ctx_len _ _ _ _ _ _ C2)) as F3.
    eapply HQ; [eapply ext_trans; [apply ext_app|eapply ext_trans; apply ext_app]|eapply ext_trans; [apply ext_app|eapply ext_trans; apply ext_app]|rewrite !app_length; cbn; lia|exact C3|].
    exists (length sg1), (length (sg1 ++ [nd])), [], nd.
    split; [eapply fresh_le; [|exact F3]; rewrite !app_length; lia|].
    split; [eapply fresh_le; [|eapply fresh_ext; [apply ext_app|apply ext_app|exact F2]]; rewrite !app_length; lia|].
    split; [rewrite !app_length; cbn; lia|]. split; [constructor|].
    assert (F1' : fresh (length sg) (((w1 ++ [None]) ++ [None]) ++ [None]) (((sg1 ++ [nd]) ++ [NNodes [length sg1]]) ++ [NQual (length (sg1 ++ [nd]))]) (length sg1) nd).
    { eapply fresh_le; [exact Hle|]. eapply fresh_ext; [apply ext_app|apply ext_app|]. eapply fresh_ext; [apply ext_app|apply ext_app|exact F1]. }
    split; [apply F1'|]. split; [exact Hi|]. right. split; [exact F1'|]. eapply dsh_sub; [|exact Hd].
    eapply sub_trans; [apply sub_app|]. eapply sub_trans; [apply sub_app|apply sub_app].
  Qed.
  Definition dynamic_kind (d : bool) : sik := if d then SDynamicAtexitDestructor else SDynamicInitializer.
  Lemma dynamic_parse d fu r sg f n e (Q : handle -> st -> Prop) : wp e (demangle_init_fini_stub E (K fu) d) Q (at_ r sg f n) ->
    wp e (k_parse (K (S fu))) Q (at_ (dynamic_code d ++ r) sg f n).
  Proof.
    intros H. assert (Hp : exists p, dynamic_code d = ch "?" :: p /\ In (p, dynamic_kind d) special_table).
    { destruct d; [exists (L "?__F")|exists (L "?__E")]; (split; [reflexivity|cbn; tauto]). }
    destruct Hp as (p & -> & Hin). cbn [app]. eapply parse_special; [exact Hin|]. destruct d; exact H.
  Qed.
  Lemma c_sy_dynamic G d t i G1 c ss G2 v k a sig G3 x : P_usym G t i G1 -> first_is_not "?"%char t -> P_chain G1 c ss G2 -> P_function G2 v k a sig G3 ->
      id_text E i ss (ret_of sig) x ->
      P_symbol G (dynamic_code d ++ t ++ c ++ v)
        (show_function E k a sig (dynamic_text d false (qualified (ss ++ [x])))) (dynamic_text d false (qualified (ss ++ [x]))) G3.
  Proof.
    intros Hu Hq Hch Hv Hx. split; [destruct d; eexists; reflexivity|]. intros fu rest w sg f n Hfu Hc HB.
    assert (Hdl : length (dynamic_code d) = 5) by (destruct d; reflexivity). destruct fu as [|fu]; [len|].
    rewrite <- !app_assoc. apply dynamic_parse. unfold demangle_init_fini_stub. pose proof (proj1 Hu) as Hl.
    eapply wp_step; [apply eat_no; apply first_not; [exact Hl|exact Hq]|].
    replace (t ++ c ++ v ++ rest) with ((t ++ c ++ v) ++ rest) by (rewrite <- !app_assoc; reflexivity).
    apply wp_bind. eapply wp_mono; [eapply (fdecl_at _ _ _ _ _ _ _ _ _ _ _ _ _ _ _ Hu Hch Hv Hx); [len|exact Hc|len]|].
    intros h s (w1 & sg1 & f1 & n1 & -> & X1 & S1 & L1 & C1 & qn & sh & R1 & R2 & R3).
    apply wp_bind. eapply wp_resolve; [exact (proj2 (proj2 R2))|reflexivity|]. cbv iota. eapply wp_step; [reflexivity|].
    destruct (name_seal E w (length sg) w1 sg1 f1 n1 G3 ss x qn C1 R1) as (w2 & X2 & U2 & C2 & D2 & F2 & _); [rewrite (ctx_len _ _ _ _ _ _ Hc); lia|exact X1|].
    apply F2 in R2; [|reflexivity]. pose proof (DF_sub _ _ _ _ _ _ _ U2 R3) as R4.
    apply wp_assoc. set (X := dynamic_text d false (qualified (ss ++ [x]))).
    apply wp_bind. eapply (synth_at _ X w sg); [eapply ctx_len; exact Hc|exact C2|exact X2|exact S1|len|reflexivity| |].
    { exists (qualified (ss ++ [x])). split; [exact D2|reflexivity]. }
    intros qn' w3 sg3 X3 S3 L3 C3 N3. pose proof (fresh_ext _ _ _ _ _ _ _ X3 S3 R2) as R5.
    apply wp_bind. eapply (fresh_modify E B _ _ _ _ _ _ _ _ _ _ (length sg) sg); [exact C3|exact R5|reflexivity|eapply ext_trans; eauto|lia|].
    intros C4 F4 S4 O4 L4. apply wp_ret. cbn [set_func_name] in *.
    eapply nameX_upd in N3; [|exact (proj2 (proj2 R5))|reflexivity].
    destruct (seal E w (length sg) w3 _ f1 n1 G3 [] X qn' h (NFunc (Some qn') sh) (show_function E k a sig X) C4 N3 F4 eq_refl eq_refl) as (w5 & X5 & _ & C5 & R6);
      [|rewrite (ctx_len _ _ _ _ _ _ Hc); lia|eapply ext_trans; eauto|].
    - intros w' Hs Hd. exists k, a, sig, X. split; [eapply DF_sub; [exact Hs|]; eapply DF_sub; [apply ext_sub; exact X3|exact R4]|]. split; [exact Hd|reflexivity].
    - eapply fin_intro; [exact X5|exact S4|len|exact C5|exact R6].
  Qed.
  Lemma c_sy_dynamic_variable G d (known : bool) t i G1 c ss G2 v acc y G3 x u k a sig G4 : P_usym G t i G1 -> (known = false -> first_is_not "?"%char t) ->
      P_chain G1 c ss G2 -> P_variable G2 v acc y G3 -> id_text E i ss None x -> P_function G3 u k a sig G4 ->
      P_symbol G (dynamic_code d ++ opt known (L "?") ++ t ++ c ++ v ++ (if known then L "@@" else L "@") ++ u)
        (show_function E k a sig (dynamic_text d true (show_variable E acc y (qualified (ss ++ [x])))))
        (dynamic_text d true (show_variable E acc y (qualified (ss ++ [x])))) G4.
  Proof.
    intros Hu Hq Hch Hv Hx [_ Hf]. split; [destruct d; eexists; reflexivity|]. intros fu rest w sg f n Hfu Hc HB.
    assert (Hdl : length (dynamic_code d) = 5) by (destruct d; reflexivity). destruct fu as [|fu]; [len|].
    rewrite <- !app_assoc. apply dynamic_parse. unfold demangle_init_fini_stub. pose proof (proj1 Hu) as Hl.
    assert (He : eat_char (ch "?") (at_ (opt known (L "?") ++ t ++ c ++ v ++ (if known then L "@@" else L "@") ++ u ++ rest) sg f n) =
      Ok (known, at_ (t ++ c ++ v ++ (if known then L "@@" else L "@") ++ u ++ rest) sg f n)).
    { destruct known; [apply eat_yes|]. apply eat_no. apply first_not; [exact Hl|apply Hq; reflexivity]. }
    eapply wp_step; [exact He|]. clear He.
    replace (t ++ c ++ v ++ (if known then L "@@" else L "@") ++ u ++ rest) with ((t ++ c ++ v) ++ (if known then L "@@" else L "@") ++ u ++ rest) by (rewrite <- !app_assoc; reflexivity).
    apply wp_bind. eapply wp_mono; [eapply (vdecl_at _ _ _ _ _ _ _ _ _ _ _ _ _ _ Hu Hch Hv Hx); [len|exact Hc|len]|].
    intros h s (w1 & sg1 & f1 & n1 & -> & X1 & S1 & L1 & C1 & R1). pose proof R1 as (qn & sc & vt & _ & R2 & _).
    apply wp_bind. eapply wp_resolve; [exact (proj2 (proj2 R2))|reflexivity|]. cbv iota.
    destruct (vseal E w _ _ _ _ _ _ _ _ _ _ _ C1 R1) as (w2 & X2 & _ & C2 & R3); [rewrite (ctx_len _ _ _ _ _ _ Hc); lia|exact X1|].
    set (V := show_variable E acc y (qualified (ss ++ [x]))) in *.
    assert (R4 : DS w2 KVar h V).
    { destruct R3 as [R3 _]. destruct (cnt w2) as [|m]; [contradiction|]. destruct R3 as (nd & A1 & A2 & A3). exists nd. split; [exact A1|]. split; [|exact A3].
      assert (A4 : nth_error sg1 h = Some nd) by (eapply ctx_get; [exact C2|]; exact A1). rewrite (proj2 (proj2 R2)) in A4. injection A4 as <-. reflexivity. }
    assert (He : (if known then expect_str (L "@@") InvalidInitFiniStub else expect_char (ch "@") InvalidInitFiniStub) (at_ ((if known then L "@@" else L "@") ++ u ++ rest) sg1 f1 n1) =
      Ok (tt, at_ (u ++ rest) sg1 f1 n1)) by (destruct known; [apply expects_yes|apply expect_yes]).
    eapply wp_step; [exact He|]. clear He. pose proof (ext_len _ _ S1).
    apply wp_bind. eapply wp_mono; [eapply Hf; [len|exact C2|len]|].
    intros h' s (w3 & sg3 & f3 & n3 & -> & X3 & S3 & L3 & C3 & sh & R5 & R6). pose proof (ext_len _ _ S3).
    apply wp_assoc. set (X := dynamic_text d true V).
    apply wp_bind. eapply (synth_at _ X w sg); [eapply ctx_len; exact Hc|exact C3|eapply ext_trans; eauto|eapply ext_trans; eauto|len|reflexivity| |].
    { exists V. split; [eapply DS_sub; [apply ext_sub; exact X3|exact R4]|reflexivity]. }
    intros qn' w4 sg4 X4 S4 L4 C4 N4. pose proof (fresh_ext _ _ _ _ _ _ _ X4 S4 R5) as R7. eapply (fresh_le _ (length sg)) in R7; [|lia].
    apply wp_bind. eapply (fresh_modify E B _ _ _ _ _ _ _ _ _ _ (length sg) sg); [exact C4|exact R7|reflexivity|eapply ext_trans; [exact S1|eapply ext_trans; eauto]|lia|].
    intros C5 F5 S5 O5 L5. apply wp_ret. cbn [set_func_name] in *.
    eapply nameX_upd in N4; [|exact (proj2 (proj2 R7))|reflexivity].
    destruct (seal E w (length sg) w4 _ f3 n3 G4 [] X qn' h' (NFunc (Some qn') sh) (show_function E k a sig X) C5 N4 F5 eq_refl eq_refl) as (w6 & X6 & _ & C6 & R8);
      [|rewrite (ctx_len _ _ _ _ _ _ Hc); lia|eapply ext_trans; [exact X2|eapply ext_trans; eauto]|].
    - intros w' Hs Hd. exists k, a, sig, X. split; [eapply DF_sub; [exact Hs|]; eapply DF_sub; [apply ext_sub; exact X4|exact R6]|]. split; [exact Hd|reflexivity].
    - eapply fin_intro; [exact X6|exact S5|destruct known; len|exact C6|exact R8].
  Qed.
End Specials.
