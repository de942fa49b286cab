(** The round trip: symbols.  Proof infrastructure for [Trip]. *)
From Verif Require Import Parser Utf8 Show Den Emit Grammar Lex Step Number Pend ReadAt Round RoundNames RoundTypes RoundBody RoundArgs.

Definition ret_of (s : option ty) : option ty := match s with Some (TFun _ _ _ r _ _ _) => r | _ => None end.

(** No symbol of the grammar starts like a special intrinsic. *)
Definition ordinary (t : str) : Prop :=
  (forall p, In p (map fst special_table) -> strip_prefix p t = None) /\ strip_prefix (L "?@") t = None.
Lemma not_q_ordinary c r : c <> ch "?" -> ordinary (c :: r).
Proof.
  intros H. assert (Hs : forall p, strip_prefix (ch "?" :: p) (c :: r) = None).
  { intros p. cbn [strip_prefix]. apply N.eqb_neq in H. rewrite N.eqb_sym, H. reflexivity. }
  split; [|apply Hs]. intros p Hp. cbn in Hp. repeat (destruct Hp as [<-|Hp]; [apply Hs|]). contradiction.
Qed.
Lemma q_ordinary c r : (forall r, Forall (fun p => strip_prefix p (L "?" ++ c ++ r) = None) (map fst special_table)) ->
  (forall r, strip_prefix (L "?@") (L "?" ++ c ++ r) = None) -> ordinary (L "?" ++ c ++ r).
Proof. intros H1 H2. split; [|apply H2]. intros p Hp. exact (proj1 (Forall_forall _ _) (H1 r) p Hp). Qed.
Lemma digit_ordinary i r : i < 10 -> ordinary (digit_char i :: r).
Proof. intros H. apply not_q_ordinary. unfold digit_char. change (ch "0") with 48%N. change (ch "?") with 63%N. lia. Qed.
Ltac ord := apply q_ordinary; [let r := fresh in intros r; repeat (constructor; [reflexivity|]); constructor|reflexivity].
Lemma ubase_ordinary G t i G' r : ubase G t i G' -> ordinary (t ++ r).
Proof.
  intros H. destruct H as [G x Hx|G c x Hx|G x Hu Hne Hin|G|G|G]; rewrite <- ?app_assoc.
  - destruct (ident_head x Hx) as (c & r0 & -> & _ & Hq & _). apply not_q_ordinary. exact Hq.
  - assert (Ha : Forall (fun p => forall r, ordinary (L "?" ++ fst p ++ r)) operators) by (repeat (constructor; [intros ?; ord|]); constructor).
    exact (proj1 (Forall_forall _ _) Ha _ Hx r).
  - change (L "?__K" ++ ?y) with (L "?" ++ L "__K" ++ y). ord.
  - change (L "?0" ++ r) with (L "?" ++ L "0" ++ r). ord.
  - change (L "?1" ++ r) with (L "?" ++ L "1" ++ r). ord.
  - change (L "?B" ++ r) with (L "?" ++ L "B" ++ r). ord.
Qed.
Lemma usym_ordinary E G t i G' r : usym E G t i G' -> ordinary (t ++ r).
Proof.
  intros H. destruct H as [G i x Hi Hx|G t i G' Hb|G c Hc|G b i G1 a xs G2 Hb Ha].
  - apply digit_ordinary. exact Hi.
  - eapply ubase_ordinary; exact Hb.
  - rewrite <- app_assoc. assert (Ha : Forall (fun c => forall r, ordinary (L "?" ++ c ++ r)) free_codes) by (repeat (constructor; [intros ?; ord|]); constructor).
    exact (proj1 (Forall_forall _ _) Ha _ Hc r).
  - rewrite <- !app_assoc. change (L "?$" ++ ?y) with (L "?" ++ L "$" ++ y). ord.
Qed.
Lemma R_ordinary c r : 1 <= length c -> (forall d r, In d (L "01234") -> c <> d :: r) -> ordinary (L "?_R" ++ c ++ r).
Proof.
  intros Hl Hn. destruct c as [|d c]; [cbn in Hl; lia|]. cbn [app]. generalize (c ++ r) as z. intros z.
  assert (Hd : forall k, In k (L "01234") -> (k =? d)%N = false).
  { intros k Hk. apply N.eqb_neq. intros ->. apply (Hn d c Hk). reflexivity. }
  assert (H0 : (48 =? d)%N = false) by (apply Hd; cbn; tauto). assert (H1 : (49 =? d)%N = false) by (apply Hd; cbn; tauto).
  assert (H2 : (50 =? d)%N = false) by (apply Hd; cbn; tauto). assert (H3 : (51 =? d)%N = false) by (apply Hd; cbn; tauto).
  assert (H4 : (52 =? d)%N = false) by (apply Hd; cbn; tauto).
  split; [|reflexivity]. intros p Hp. cbn in Hp.
  change (L "?_R" ++ d :: z) with (63%N :: 95%N :: 82%N :: d :: z).
  repeat (destruct Hp as [<-|Hp]; [first [reflexivity|cbn [strip_prefix]; rewrite ?N.eqb_refl; first [rewrite H0|rewrite H1|rewrite H2|rewrite H3|rewrite H4]; reflexivity]|]). contradiction.
Qed.
Lemma ordinary_none t sg f n : ordinary t -> consume_special special_table (at_ t sg f n) = Ok (None, at_ t sg f n).
Proof.
  intros [H _]. revert H. generalize special_table as l. induction l as [|[p k] l IH]; intros H; [reflexivity|]. cbn [consume_special].
  rewrite (bind_eq _ _ _ _ _ (eats_no p t _ _ _ (H p (or_introl eq_refl)))). apply IH. intros q Hq. apply H. right. exact Hq.
Qed.

Section Syms.
  Variable E : env.
  Variable B : nat.
  Notation DT w := (dty E (cnt w) w).
  Notation DS w := (dstr E (cnt w) w).
  Notation DF w := (dfn E (cnt w) w).
  Notation okerr := (okerr E B).
  Notation ctx := (ctx E).
  Notation K := (knot_of E).
  Notation rd := (rd E B).
  Notation fin := (fin E).
  Notation P_chain := (P_chain E B).
  Notation P_qname := (P_qname E B).
  Notation P_usym := (P_usym E B).
  Notation P_symbol := (P_symbol E B).
  Notation P_body := (P_body E B).
  Notation P_fn := (P_fn E B).
  Notation pend := (pend E).
  Notation pend1 := (pend1 E).
  Notation symR := (symR E).
  Notation chainR := (chainR E).
  Notation dsh := (dsh E).

  (** ** Qualified names of symbols *)
  Definition idst (X : world -> node -> Prop) n0 w (sg : store) id nd x : Prop :=
    nth_error sg id = Some nd /\ is_ident nd = true /\
    ((wget w id = Some nd /\ DS w KIdent id x /\ is_conv_or_structor nd = false) \/ (fresh n0 w sg id nd /\ X w nd)).
  Definition nameX (X : world -> node -> Prop) ss x n0 w (sg : store) qn : Prop :=
    exists id c hs nd, fresh n0 w sg qn (NQual c) /\ fresh n0 w sg c (NNodes (hs ++ [id])) /\ c <> qn /\
      Forall2 (DS w KIdent) hs ss /\ idst X n0 w sg id nd x.
  Definition Xpre (i : idk) (x : str) (w : world) (nd : node) : Prop :=
    match i with
    | IText _ => False
    | IStructor d a => (exists tp hc, nd = NStructor tp (Some hc) d) /\ dsh w nd x
    | IConv a => exists tp, nd = NConv tp None /\ dtp (DS w) tp a
    end.
  Definition Xpost (x : str) (w : world) (nd : node) : Prop := dsh w nd x.
  Lemma Xpre_sub i x w w' nd : sub w w' -> Xpre i x w nd -> Xpre i x w' nd.
  Proof.
    intros Hs. destruct i; cbn [Xpre]; [auto| |].
    - intros [H1 H2]. split; [exact H1|]. eapply dsh_sub; eauto.
    - intros (tp & -> & H). exists tp. split; [reflexivity|]. eapply dtp_mono; [|exact H]. intros k h y. apply DS_sub. exact Hs.
  Qed.
  Lemma Xpost_sub x w w' nd : sub w w' -> Xpost x w nd -> Xpost x w' nd.
  Proof. apply dsh_sub. Qed.
  Lemma nameX_ext (X : world -> node -> Prop) ss x n0 w sg qn w' sg' : (forall w w' nd, sub w w' -> X w nd -> X w' nd) ->
    ext w w' -> ext sg sg' -> nameX X ss x n0 w sg qn -> nameX X ss x n0 w' sg' qn.
  Proof.
    intros HX Hw Hs (id & c & hs & nd & H1 & H2 & H3 & H4 & H5 & H6 & H7). pose proof (ext_sub _ _ Hw) as Hu.
    exists id, c, hs, nd. split; [eapply fresh_ext; eauto|]. split; [eapply fresh_ext; eauto|]. split; [exact H3|].
    split; [eapply forall2_ds; eauto|]. split; [eapply ext_nth; eauto|]. split; [exact H6|].
    destruct H7 as [(A1 & A2 & A3)|(A1 & A2)]; [left|right].
    - split; [apply Hu; exact A1|]. split; [eapply DS_sub; eauto|exact A3].
    - split; [eapply fresh_ext; eauto|]. eapply HX; eauto.
  Qed.
  Lemma nameX_le X ss x n0 n1 w sg qn : n1 <= n0 -> nameX X ss x n0 w sg qn -> nameX X ss x n1 w sg qn.
  Proof.
    intros H (id & c & hs & nd & H1 & H2 & H3 & H4 & H5 & H6 & H7). exists id, c, hs, nd.
    split; [eapply fresh_le; eauto|]. split; [eapply fresh_le; eauto|]. split; [exact H3|]. split; [exact H4|]. split; [exact H5|]. split; [exact H6|].
    destruct H7 as [A|(A1 & A2)]; [left; exact A|right]. split; [eapply fresh_le; eauto|exact A2].
  Qed.
  (** Other nodes may change. *)
  Lemma nameX_upd X ss x n0 w sg qn j nd' old : nth_error sg j = Some old -> is_sym old = true -> nameX X ss x n0 w sg qn -> nameX X ss x n0 w (lset sg j nd') qn.
  Proof.
    intros Hj Hy (id & c & hs & nd & H1 & H2 & H3 & H4 & H5 & H6 & H7).
    assert (Ho : forall k nk, nth_error sg k = Some nk -> is_sym nk = false -> nth_error (lset sg j nd') k = nth_error sg k).
    { intros k nk Hk Hn. apply lset_other. intros ->. rewrite Hk in Hj. injection Hj as ->. congruence. }
    assert (Hf : forall k nk, fresh n0 w sg k nk -> is_sym nk = false -> fresh n0 w (lset sg j nd') k nk).
    { intros k nk (F1 & F2 & F3) Hn. split; [exact F1|]. split; [exact F2|]. rewrite (Ho k nk F3 Hn). exact F3. }
    assert (Hi : is_sym nd = false) by (destruct nd; try reflexivity; discriminate).
    exists id, c, hs, nd. split; [apply Hf; [exact H1|reflexivity]|]. split; [apply Hf; [exact H2|reflexivity]|]. split; [exact H3|]. split; [exact H4|].
    split; [rewrite (Ho id nd H5 Hi); exact H5|]. split; [exact H6|].
    destruct H7 as [A|(A1 & A2)]; [left; exact A|right]. split; [apply Hf; assumption|exact A2].
  Qed.
  Lemma last_split {A C} (R : A -> C -> Prop) hs l y : Forall2 R hs (l ++ [y]) -> exists hs' h, hs = hs' ++ [h] /\ R h y.
  Proof.
    revert hs. induction l as [|z l IH]; intros hs H; inversion H as [|a b hs0 l0 H1 H2]; subst.
    - inversion H2; subst. exists [], a. auto.
    - destruct (IH _ H2) as (hs' & h & -> & Hr). exists (a :: hs'), h. auto.
  Qed.
  Lemma qualified_at G t i G1 c ss G2 r x : P_usym G t i G1 -> P_chain G1 c ss G2 -> id_text E i ss r x ->
    rd 0 (t ++ c) G G2 (fun fu => demangle_fully_qualified_symbol_name E (K fu)) (nameX (Xpre i x) ss x).
  Proof.
    intros [Hl H1] H2 Hx fu rest w sg f n Hfu Hc HB. unfold demangle_fully_qualified_symbol_name. rewrite <- app_assoc.
    apply wp_bind. eapply wp_mono; [eapply H1; [len|exact Hc|len]|]. intros id s (w1 & sg1 & f1 & n1 & -> & X1 & S1 & L1 & C1 & R1).
    apply wp_bind. eapply wp_mono; [eapply (chain_at _ _ id); [exact H2|len|exact C1|len]|].
    intros qn s (w2 & sg2 & f2 & n2 & -> & X2 & S2 & L2 & C2 & ch0 & hs & Q1 & Q2 & Q3 & Q4).
    pose proof (ext_len _ _ S1) as E1. pose proof (ext_len _ _ S2) as E2. pose proof (ext_sub _ _ X2) as U2.
    assert (Q1' : fresh (length sg) w2 sg2 qn (NQual ch0)) by (eapply fresh_le; [|exact Q1]; lia).
    assert (Q2' : fresh (length sg) w2 sg2 ch0 (NNodes (hs ++ [id]))) by (eapply fresh_le; [|exact Q2]; lia).
    destruct Hx as [x ss r|d a ss cx r|a ss r]; cbn [usymR] in R1.
    - destruct R1 as (D1 & nd & A1 & A2 & A3). apply U2 in A1. pose proof (ctx_get _ _ _ _ _ _ _ _ C2 A1) as A4.
      apply wp_bind. eapply wp_resolve; [exact A4|exact A2|].
      assert (Hfin : fin w sg (length sg + 2 * length (t ++ c) - 0) rest G2 (nameX (Xpre (IText x) x) ss x (length sg)) qn (at_ rest sg2 f2 n2)).
      { eapply fin_intro; [eapply ext_trans; eauto|eapply ext_trans; eauto|len|exact C2|]. exists id, ch0, hs, nd.
        split; [exact Q1'|]. split; [exact Q2'|]. split; [exact Q3|]. split; [exact Q4|]. split; [exact A4|]. split; [exact A2|].
        left. split; [exact A1|]. split; [eapply DS_sub; eauto|exact A3]. }
      destruct nd; try discriminate; apply wp_ret; exact Hfin.
    - destruct R1 as (nd & F1 & tp & -> & Ht). eapply fresh_ext in F1; [|exact X2|exact S2].
      pose proof F1 as (B1 & B2 & B3). pose proof Q1 as (_ & _ & B4). pose proof Q2 as (_ & _ & B5).
      apply wp_bind. eapply wp_resolve; [exact B3|reflexivity|]. apply wp_bind. eapply wp_resolve; [exact B4|reflexivity|].
      apply wp_bind. eapply wp_resolve; [exact B5|reflexivity|]. destruct (last_split _ _ _ _ Q4) as (hs' & hc & -> & Hhc).
      rewrite !app_length. cbn [length]. assert (Hlt : (length hs' + 1 + 1 <? 2) = false) by (apply Nat.ltb_ge; lia). rewrite Hlt.
      replace (length hs' + 1 + 1 - 2) with (length hs') by lia. rewrite <- app_assoc. rewrite nth_error_app2, Nat.sub_diag by lia. cbn [app nth_error].
      destruct (DS_get _ _ _ _ _ Hhc) as (cn & N1 & N2). pose proof (ctx_get _ _ _ _ _ _ _ _ C2 N1) as N3.
      apply wp_bind. apply wp_bind. eapply wp_resolve; [exact N3|reflexivity|]. cbn [hkind] in N2. rewrite N2. apply wp_ret.
      apply wp_bind. eapply (fresh_modify E B _ _ _ _ _ _ _ _ _ _ (length sg) sg); [exact C2|exact F1|reflexivity|eapply ext_trans; eauto|lia|].
      intros C3 F3 S3 O3 L3. apply wp_ret. cbn [set_class] in *.
      eapply fin_intro; [eapply ext_trans; eauto|exact S3|len|exact C3|]. exists id, ch0, (hs' ++ [hc]), (NStructor tp (Some hc) d).
      assert (Hf : forall k nk, fresh (length sg) w2 sg2 k nk -> k <> id -> fresh (length sg) w2 (lset sg2 id (NStructor tp (Some hc) d)) k nk).
      { intros k nk (G1' & G2' & G3') Hk. split; [exact G1'|]. split; [exact G2'|]. rewrite O3 by exact Hk. exact G3'. }
      split; [apply Hf; [exact Q1'|intros ->; congruence]|]. split; [apply Hf; [exact Q2'|intros ->; congruence]|].
      split; [exact Q3|]. split; [exact Q4|]. split; [apply F3|]. split; [reflexivity|]. right. split; [exact F3|]. cbn [Xpre].
      split; [eauto|]. exists a, cx. split; [|split; [exact Hhc|reflexivity]]. eapply dtp_mono; [|exact Ht]. intros k h y. apply DS_sub. exact U2.
    - destruct R1 as (nd & F1 & tp & -> & Ht). eapply fresh_ext in F1; [|exact X2|exact S2].
      pose proof F1 as (B1 & B2 & B3). apply wp_bind. eapply wp_resolve; [exact B3|reflexivity|]. apply wp_ret.
      eapply fin_intro; [eapply ext_trans; eauto|eapply ext_trans; eauto|len|exact C2|]. exists id, ch0, hs, (NConv tp None).
      split; [exact Q1'|]. split; [exact Q2'|]. split; [exact Q3|]. split; [exact Q4|]. split; [exact B3|]. split; [reflexivity|].
      right. split; [exact F1|]. exists tp. split; [reflexivity|]. eapply dtp_mono; [|exact Ht]. intros k h y. apply DS_sub. exact U2.
  Qed.
  (** Looking up the identifier. *)
  Lemma unq_eq sg f n t qn c hs id nd : nth_error sg qn = Some (NQual c) -> nth_error sg c = Some (NNodes (hs ++ [id])) -> nth_error sg id = Some nd ->
    is_ident nd = true -> unqualified_identifier qn (at_ t sg f n) = Ok (Some id, at_ t sg f n).
  Proof.
    intros H1 H2 H5 H6. unfold unqualified_identifier.
    assert (Hr : forall k h m, nth_error sg h = Some m -> hkind k m = true -> res_ k h (at_ t sg f n) = Ok (m, at_ t sg f n)).
    { intros k h m Hm Hk. unfold res_, resolve. change (s_store (at_ t sg f n)) with sg. rewrite Hm, Hk. reflexivity. }
    rewrite (bind_eq _ _ _ _ _ (Hr KQual qn _ H1 eq_refl)). rewrite (bind_eq _ _ _ _ _ (Hr KNodes c _ H2 eq_refl)).
    rewrite rev_app_distr. cbn [rev app]. rewrite (bind_eq _ _ _ _ _ (Hr KAny id _ H5 eq_refl)). rewrite H6. reflexivity.
  Qed.
  Lemma unqualified_at X ss x n0 w sg f n t qn : nameX X ss x n0 w sg qn -> exists id nd,
    idst X n0 w sg id nd x /\ unqualified_identifier qn (at_ t sg f n) = Ok (Some id, at_ t sg f n).
  Proof.
    intros (id & c & hs & nd & H1 & H2 & H3 & H4 & H5). exists id, nd. split; [exact H5|].
    apply unq_eq with (c := c) (hs := hs) (nd := nd); [apply H1|apply H2|apply H5|apply H5].
  Qed.
  (** A name becomes known. *)
  Lemma name_seal w0 n0 w sg f n G ss x qn : ctx w sg f n G -> nameX (Xpost x) ss x n0 w sg qn -> length w0 <= n0 -> ext w0 w ->
    exists w', ext w0 w' /\ sub w w' /\ ctx w' sg f n G /\ DS w' KQual qn (qualified (ss ++ [x])) /\
      (forall j nj, fresh n0 w sg j nj -> is_sym nj = true -> fresh n0 w' sg j nj) /\
      exists c hs id, wget w' qn = Some (NQual c) /\ wget w' c = Some (NNodes (hs ++ [id])) /\ DS w' KIdent id x.
  Proof.
    intros Hc (id & c & hs & idn & H1 & H2 & H3 & H4 & H5 & H6 & H7) H0 Hx.
    assert (Hid : exists w1, ext w0 w1 /\ sub w w1 /\ ctx w1 sg f n G /\ DS w1 KIdent id x /\
      forall j nj, fresh n0 w sg j nj -> is_ident nj = false -> fresh n0 w1 sg j nj).
    { destruct H7 as [(A1 & A2 & A3)|(A1 & A2)].
      - exists w. split; [exact Hx|]. split; [apply sub_refl|]. split; [exact Hc|]. split; [exact A2|auto].
      - destruct (fresh_reveal E w0 _ _ _ _ _ _ _ _ Hc A1 H0 Hx) as (X1 & C1 & M1). eexists. split; [exact X1|]. split; [apply M1|]. split; [exact C1|].
        split; [eapply more_DS; [exact M1|exact H6|exact A2]|]. intros j nj (F1 & F2 & F3) Hj. split; [exact F1|]. split; [|exact F3].
        apply reveal_hid; [|exact F2]. intros ->. congruence. }
    destruct Hid as (w1 & X1 & U1 & C1 & D1 & F1).
    assert (Hch : chainR id ss n0 w1 sg qn).
    { exists c, hs. split; [apply F1; [exact H1|reflexivity]|]. split; [apply F1; [exact H2|reflexivity]|]. split; [exact H3|]. eapply forall2_ds; [exact U1|exact H4]. }
    destruct (reveal_chain E w0 n0 w1 sg f n G id ss x qn C1 Hch D1 H0 X1) as (w2 & X2 & U2 & C2 & D2 & F2 & c' & hs' & G1 & G2).
    exists w2. split; [exact X2|]. split; [eapply sub_trans; eauto|]. split; [exact C2|]. split; [exact D2|]. split.
    - intros j nj Hf Hy. apply F2; [apply F1; [exact Hf|]| |]; destruct nj; try reflexivity; discriminate.
    - exists c', hs', id. split; [exact G1|]. split; [exact G2|]. eapply DS_sub; [exact U2|exact D1].
  Qed.
  (** Once the symbol has its name, everything is known. *)
  Lemma seal w0 n0 w sg f n G ss x qn h nd X : ctx w sg f n G -> nameX (Xpost x) ss x n0 w sg qn -> fresh n0 w sg h nd ->
    is_sym nd = true -> sym_name nd = Some qn ->
    (forall w', sub w w' -> DS w' KQual qn (qualified (ss ++ [x])) -> dsh w' nd X) ->
    length w0 <= n0 -> ext w0 w -> exists w', ext w0 w' /\ sub w w' /\ ctx w' sg f n G /\ symR X x w' h.
  Proof.
    intros Hc Hnm Hf Hy Hn HX H0 Hx. destruct (name_seal w0 n0 w sg f n G ss x qn Hc Hnm H0 Hx) as (w2 & X2 & U2 & C2 & D2 & F2 & c & hs & id & G1 & G2 & D1).
    destruct (fresh_reveal E w0 _ _ _ _ _ _ _ _ C2 (F2 h nd Hf Hy) H0 X2) as (X3 & C3 & M3).
    eexists. split; [exact X3|]. split; [eapply sub_trans; [exact U2|apply M3]|]. split; [exact C3|]. split.
    - eapply more_DS; [exact M3|exact Hy|]. apply HX; [exact U2|exact D2].
    - exists nd, qn, c, hs, id. split; [apply M3|]. split; [exact Hy|]. split; [exact Hn|]. split; [apply M3; exact G1|]. split; [apply M3; exact G2|].
      eapply DS_sub; [apply M3|exact D1].
  Qed.

  (** ** Variables *)
  Definition varR a y (n0 : nat) w sg h : Prop := exists sc t, fresh n0 w sg h (NVar None (Some sc) (Some t)) /\ daccess (Some sc) a /\ DT w t y.
  Definition P_variable (G : tab) (t : str) (a : option access) (y : ty) (G' : tab) : Prop :=
    forall qn, rd 0 t G G' (fun fu => demangle_encoded_symbol E (K fu) qn) (varR a y).
  (** The symbol node of a variable with a pending type. *)
  Lemma var_at sc a t y w0 sg0 M G rest w sg f n : ctx w sg f n G -> length w0 = length sg0 -> ext w0 w -> ext sg0 sg -> length sg + 1 <= M -> M <= B ->
    pend (length sg0) w sg t y -> daccess (Some sc) a ->
    wp okerr (intern E (NVar None (Some sc) (Some t))) (fin w0 sg0 M rest G (varR a y (length sg0))) (at_ rest sg f n).
  Proof.
    intros Hc Hl Hw Hs HM HB Hp Ha. pose proof (ext_len _ _ Hs).
    destruct (settle E (length sg0) w0 w sg t y ltac:(lia) Hw ltac:(apply Hc) Hp) as (w1 & X1 & U1 & C1 & D1).
    assert (Hc1 : ctx w1 sg f n G) by (eapply ctx_mono; eauto).
    eapply wp_new_hidden; [exact Hc1|lia|]. intros C'.
    eapply fin_intro; [eapply ext_trans; [exact X1|apply ext_app]|eapply ext_trans; [exact Hs|apply ext_app]|rewrite app_length; cbn; lia|exact C'|].
    exists sc, t. split; [eapply fresh_le; [|apply fresh_new; eapply ctx_len; exact Hc1]; lia|]. split; [exact Ha|]. eapply DT_sub; [apply sub_app|exact D1].
  Qed.
  Lemma pend_ptr n0 w sg h y nd : pend n0 w sg h y -> nth_error sg h = Some nd -> (forall q k cl p, y <> TPtr q k cl p) ->
    forall q a c p, nd <> NPtr q a c p.
  Proof.
    intros Hp Hn Hy q a c p ->. assert (H1 : pend1 n0 w sg h y) by (destruct y; try exact Hp; exfalso; eapply Hy; reflexivity).
    destruct H1 as (_ & _ & nd & H1 & H2). rewrite Hn in H1. injection H1 as <-. destruct H2 as (a' & c' & pt & _ & -> & _). eapply Hy. reflexivity.
  Qed.
  Lemma c_va_plain G s a t y G' m c v : storage_code s a -> P_body G t y G' -> (forall q k cl p, y <> TPtr q k cl p) ->
      P_variable G ([s] ++ t ++ [cv_code m c v]) a (replace_quals (cvq c v) y) G'.
  Proof.
    intros Hst Hb Hy qn fu rest w sg f n Hfu Hc HB. rewrite <- !app_assoc. cbn [app]. unfold demangle_encoded_symbol.
    eapply wp_step; [apply text_at|]. eapply wp_step; [reflexivity|]. destruct (storage_at sg f n s a (t ++ cv_code m c v :: rest) Hst) as (Hs1 & sc & Hs2 & Hs3).
    rewrite Hs1. eapply wp_step; [exact Hs2|]. unfold demangle_variable_encoding.
    apply wp_bind. eapply wp_mono; [eapply (drop_at _ _ _ _ _ _ Hb); [len|exact Hc|len]|]. intros h st (w1 & sg1 & f1 & n1 & -> & X1 & S1 & L1 & C1 & R1).
    destruct (pend_hid _ _ _ _ _ _ R1) as [A1 A2]. destruct (pend_node _ _ _ _ _ _ R1) as (nd & A3 & A4).
    apply wp_bind. eapply wp_resolve; [exact A3|exact A4|].
    assert (Hq : wp okerr (('(q, _) <- demangle_qualifiers ;; modify KType h (set_quals q)) ;;; intern E (NVar None (Some sc) (Some h)))
      (fin w sg (length sg + 2 * length ([s] ++ t ++ [cv_code m c v]) - 0) rest G' (varR a (replace_quals (cvq c v) y) (length sg))) (at_ (cv_code m c v :: rest) sg1 f1 n1)).
    { apply wp_bind. eapply wp_step; [apply quals_at|]. cbv iota beta.
      eapply (fresh_modify E B _ _ _ _ _ _ _ _ _ nd (length sg) sg); [exact C1|split; [exact A1|split; [exact A2|exact A3]]|exact A4|exact S1|lia|].
      intros C2 F2 S2 _ L2. eapply var_at; [exact C2|eapply ctx_len; exact Hc|exact X1|exact S2|len|len| |exact Hs3]. apply pend_upd; [exact A3|exact R1]. }
    pose proof (pend_ptr _ _ _ _ _ _ R1 A3 Hy) as Hnp. destruct nd; try discriminate; try exact Hq. exfalso. eapply Hnp. reflexivity.
  Qed.
  (** Pointers: the common part. *)
  Lemma ptr_var_at (G : tab) s a t q k cl y G1 p r u m c v (tail : str) (G2 : tab) : storage_code s a -> P_body G t (TPtr q k cl y) G1 ->
    (match cl with None => tail = [] /\ G1 = G2 | Some _ => exists n', P_qname G1 tail n' G2 end) ->
    P_variable G ([s] ++ t ++ ext_code p r u ++ [cv_code m c v] ++ tail) a (TPtr (N.lor q (extq p r u)) k cl (add_quals (cvq c v) y)) G2.
  Proof.
    intros Hst Hb Htl qn fu rest w sg f n Hfu Hc HB. rewrite <- !app_assoc. cbn [app]. unfold demangle_encoded_symbol.
    eapply wp_step; [apply text_at|]. eapply wp_step; [reflexivity|].
    destruct (storage_at sg f n s a (t ++ ext_code p r u ++ cv_code m c v :: tail ++ rest) Hst) as (Hs1 & sc & Hs2 & Hs3).
    rewrite Hs1. eapply wp_step; [exact Hs2|]. unfold demangle_variable_encoding.
    apply wp_bind. eapply wp_mono; [eapply (drop_at _ _ _ _ _ _ Hb); [len|exact Hc|len]|]. intros h st (w1 & sg1 & f1 & n1 & -> & X1 & S1 & L1 & C1 & R1).
    pose proof R1 as (A1 & A2 & cls & pt & A3 & A4 & A5 & A6).
    apply wp_bind. eapply wp_resolve; [exact A3|reflexivity|]. apply wp_bind. eapply wp_step; [apply ext_at; apply cv_no_ext|].
    apply wp_bind. eapply (fresh_modify E B _ _ _ _ _ _ _ _ _ _ (length sg) sg); [exact C1|split; [exact A1|split; [exact A2|exact A3]]|reflexivity|exact S1|lia|].
    intros C2 F2 S2 _ L2. eapply (pend_upd E (fun old => N.lor old (extq p r u))) in R1; [|exact A3]. cbn [append_quals node_quals map_quals] in *.
    set (sg2 := lset sg1 h (NPtr (N.lor q (extq p r u)) (Some k) cls pt)) in *. cbv beta in R1. 
    apply wp_bind. eapply wp_resolve; [apply F2|reflexivity|]. eapply wp_step; [apply quals_at|]. cbv iota beta.
    assert (Hcl : wp okerr (match cls with Some _ => demangle_fully_qualified_type_name E (K fu) ;;; ret tt | None => ret tt end)
      (fin w1 sg2 (length sg1 + 2 * length tail) rest G2 (fun w' sg' _ => pend (length sg) w' sg' h (TPtr (N.lor q (extq p r u)) k cl y))) (at_ (tail ++ rest) sg2 f1 n1)).
    { destruct cls as [hc|], cl as [cn|]; try contradiction A5.
      - destruct Htl as (n' & Hl' & Hq). apply wp_bind. eapply wp_mono; [eapply Hq; [len|exact C2|len]|].
        intros h' st (w3 & sg3 & f3 & n3 & -> & X3 & S3 & L3 & C3 & _). apply wp_ret. eapply fin_intro; [exact X3|exact S3|len|exact C3|].
        eapply pend_ext; [exact X3|exact S3|exact R1].
      - destruct Htl as [-> ->]. apply wp_ret. eapply fin_intro; [apply ext_refl|apply ext_refl|len|exact C2|exact R1]. }
    apply wp_bind. eapply wp_mono; [exact Hcl|]. intros [] st (w3 & sg3 & f3 & n3 & -> & X3 & S3 & L3 & C3 & R3).
    destruct R3 as (D1 & D2 & cls3 & pt3 & D3 & D4 & D5 & D6). 
    assert (Heq : cls3 = cls /\ pt3 = pt).
    { pose proof (ext_nth _ _ _ _ S3 (proj2 (proj2 F2))) as Hn. rewrite D3 in Hn. injection Hn as -> ->. auto. }
    destruct Heq as [-> ->]. pose proof D6 as (P1 & P2 & pn & P3 & P4).
    assert (Hpt : is_type pn = true) by (destruct pn; try contradiction; reflexivity).
    eapply (fresh_modify E B _ _ _ _ _ _ _ _ _ pn (length sg) sg); [exact C3|split; [exact P1|split; [exact P2|exact P3]]|exact Hpt|eapply ext_trans; eauto|lia|].
    intros C4 F4 S4 O4 L4. eapply var_at; [exact C4|eapply ctx_len; exact Hc|eapply ext_trans; eauto|exact S4|len|len| |exact Hs3].
    cbn [Pend.pend]. split; [exact D1|]. split; [exact D2|]. exists cls, pt. split; [rewrite O4 by auto; exact D3|]. split; [exact D4|]. split; [exact D5|].
    apply (pend1_upd E (fun old => N.lor old (cvq c v))); [exact P3|exact D6].
  Qed.
  Lemma c_va_pointer G s a t q k y G' p r u m c v : storage_code s a -> P_body G t (TPtr q k None y) G' ->
      P_variable G ([s] ++ t ++ ext_code p r u ++ [cv_code m c v]) a (TPtr (N.lor q (extq p r u)) k None (add_quals (cvq c v) y)) G'.
  Proof. intros H1 H2. rewrite <- (app_nil_r [cv_code m c v]). eapply ptr_var_at; [exact H1|exact H2|]. auto. Qed.
  Lemma c_va_member_pointer G s a t q k nm y G1 p r u m c v t' n' G2 :
      storage_code s a -> P_body G t (TPtr q k (Some nm) y) G1 -> P_qname G1 t' n' G2 ->
      P_variable G ([s] ++ t ++ ext_code p r u ++ [cv_code m c v] ++ t') a (TPtr (N.lor q (extq p r u)) k (Some nm) (add_quals (cvq c v) y)) G2.
  Proof. intros H1 H2 H3. eapply ptr_var_at; [exact H1|exact H2|]. eauto. Qed.

  (** ** Functions *)
  Definition funR k a s (n0 : nat) w sg h : Prop := exists sig, fresh n0 w sg h (NFunc None sig) /\ DF w sig k a s.
  Definition P_function (G : tab) (t : str) (k : fn_class) (a : adjustment) (s : option ty) (G' : tab) : Prop :=
    (forall r, exists c r', t ++ r = c :: r' /\ one_of (L "01234") c = false) /\
    rd 0 t G G' (fun fu => demangle_function_encoding E (K fu)) (funR k a s).
  Lemma DF_ret w h c a s : DF w h c a s -> exists nd, wget w h = Some nd /\ is_sig nd = true /\ opt_rel (DT w) (sig_return nd) (ret_of s).
  Proof.
    intros H. destruct (cnt w) as [|m] eqn:Hm; [contradiction|]. destruct H as (nd & Hg & f & _ & Ha & Hs). exists nd. split; [exact Hg|].
    assert (Hn : is_sig nd = true /\ sig_return nd = fs_ret f).
    { destruct a; [rewrite Ha; split; reflexivity| | | |]; destruct Ha as (ta & -> & _); split; reflexivity. }
    destruct Hn as [Hn1 Hn2]. split; [exact Hn1|]. rewrite Hn2. destruct s as [y|]; cbn [ret_of].
    - destruct Hs as [_ Hd]. destruct y; try contradiction. destruct Hd as (_ & _ & _ & _ & _ & Hr & _).
      eapply opt_rel_mono; [|exact Hr]. intros z y. apply dty_mono; [lia|apply sub_refl].
    - destruct Hs as (_ & _ & _ & _ & _ & Hr). rewrite Hr. exact I.
  Qed.
  (** From a signature node to the symbol. *)
  Lemma fun_at nd fc k a s w0 sg0 M G rest w sg f n h : ctx w sg f n G -> length w0 = length sg0 -> ext w0 w -> ext sg0 sg -> length sg + 1 <= M -> M <= B ->
    fresh (length sg0) w sg h nd -> is_sig nd = true -> dfun E (DT w) (DS w) (set_function_class fc nd) k a s ->
    wp okerr (modify KSig h (set_function_class fc) ;;; intern E (NFunc None h)) (fin w0 sg0 M rest G (funR k a s (length sg0))) (at_ rest sg f n).
  Proof.
    intros Hc Hl Hw Hs HM HB Hf Hn Hd. pose proof (ext_len _ _ Hs).
    apply wp_bind. eapply (fresh_modify E B _ _ _ _ _ _ _ _ _ nd (length sg0) sg0); [exact Hc|exact Hf|exact Hn|exact Hs|lia|].
    intros C1 F1 S1 _ L1. destruct (fresh_reveal E w0 _ _ _ _ _ _ _ _ C1 F1 ltac:(lia) Hw) as (X2 & C2 & M2).
    eapply wp_new_hidden; [exact C2|lia|]. intros C3.
    eapply fin_intro; [eapply ext_trans; [exact X2|apply ext_app]|eapply ext_trans; [exact S1|apply ext_app]|rewrite app_length; cbn; lia|exact C3|].
    exists h. split; [eapply fresh_le; [|apply fresh_new; eapply ctx_len; exact C2]; lia|].
    eapply DF_sub; [apply sub_app|]. eapply more_DF; [exact M2|exact Hd].
  Qed.
  Lemma c_fu_typed x G ct c a this t y G' : class_code x ct c a this -> P_fn this G t y G' -> P_function G (opt x (L "$$J0") ++ ct ++ t) c a (Some y) G'.
  Proof.
    intros Hcl Hf. split.
    { intros r. destruct x; [eexists _, _; split; reflexivity|]. rewrite <- !app_assoc. cbn [opt app].
      destruct (class_head _ _ _ _ _ (t ++ r) Hcl) as (l & r' & -> & H & _). eauto. }
    intros fu rest w sg f n Hfu Hc HB. rewrite <- !app_assoc. unfold demangle_function_encoding.
    destruct (class_head x ct c a this (t ++ rest) Hcl) as (l & r' & Hh & _ & Hj).
    assert (H1 : eat_str (L "$$J0") (at_ (opt x (L "$$J0") ++ ct ++ t ++ rest) sg f n) = Ok (x, at_ (ct ++ t ++ rest) sg f n)).
    { destruct x; [apply eats_yes|]. apply eats_no. exact Hj. }
    eapply wp_step; [exact H1|]. eapply wp_step; [apply text_at|]. assert (He : is_empty (ct ++ t ++ rest) = false) by (rewrite Hh; reflexivity). rewrite He.
    destruct (class_at sg f n x ct c a this (t ++ rest) Hcl) as (fc0 & mid & ttn & A1 & A2 & A3 & A4 & A5 & A6). cbv zeta in *.
    eapply wp_step; [exact A1|]. eapply wp_step; [exact A2|]. rewrite A3, A4.
    assert (Hcl1 : 1 <= length ct) by (destruct Hcl; cbn [length app]; len).
    apply wp_bind. eapply wp_mono; [eapply Hf; [len|exact Hc|len]|]. intros h s (w1 & sg1 & f1 & n1 & -> & X1 & S1 & L1 & C1 & (R1 & R2 & nd & R3 & R4) & q & cc & rq & rr & ps & va & ne & ->).
    pose proof (ext_len _ _ S1). assert (Hnd : exists g, nd = NFSig g /\ dsig E (DT w1) (DS w1) g (TFun q cc rq rr ps va ne)).
    { clear - R4. unfold Pend.dn in R4. destruct nd; cbn in R4; try contradiction; try discriminate R4;
        try (exfalso; repeat match goal with H : exists _, _ |- _ => destruct H | H : _ /\ _ |- _ => destruct H end; discriminate).
      exists f. split; [reflexivity|apply R4]. }
    destruct Hnd as (g & -> & Hg). set (fc := N.lor fc0 (if x then FC_ExternC else FC_None)) in *.
    set (g' := mkFsig (fs_quals g) (fs_cc g) fc (fs_ref g) (fs_ret g) (fs_variadic g) (fs_params g) (fs_noexcept g)).
    assert (Hg' : forall ww, sub w1 ww -> dsig E (DT ww) (DS ww) g' (TFun q cc rq rr ps va ne)).
    { intros ww Hs. eapply dsig_mono; [| |exact Hg]; [intros h0 t0; apply DT_sub; exact Hs|intros k0 h0 x0; apply DS_sub; exact Hs]. }
    assert (Hthunk : forall ta, ttn = Some ta -> dadj fc ta a -> a <> NoAdjustment ->
      wp okerr (sig <- (n <- res_ KFSig h ;; match n with NFSig f => intern E (NThunk f ta) | _ => panic end) ;;
         modify KSig sig (set_function_class fc) ;;; intern E (NFunc None sig))
       (fin w sg (length sg + 2 * length (opt x (L "$$J0") ++ ct ++ t) - 0) rest G' (funR c a (Some (TFun q cc rq rr ps va ne)) (length sg))) (at_ rest sg1 f1 n1)).
    { intros ta -> Hadj Hna. apply wp_bind. apply wp_bind. eapply wp_resolve; [exact R3|reflexivity|].
      eapply wp_new_hidden; [exact C1|len|]. intros C2.
      eapply (fun_at (NThunk g ta)); [exact C2|eapply ctx_len; exact Hc|eapply ext_trans; [exact X1|apply ext_app]|eapply ext_trans; [exact S1|apply ext_app]|len|len| |reflexivity|].
      - eapply fresh_le; [|apply fresh_new; eapply ctx_len; exact C1]. lia.
      - exists g'. split; [exact A5|]. split; [destruct a; try congruence; exists ta; (split; [reflexivity|exact Hadj])|]. split; [exact A3|]. apply Hg'. apply sub_app. }
    destruct a; [|destruct A6 as (ta & -> & Hadj); apply (Hthunk ta eq_refl Hadj); discriminate ..].
    subst ttn. eapply wp_step; [reflexivity|].
    eapply (fun_at (NFSig g)); [exact C1|eapply ctx_len; exact Hc|exact X1|exact S1|len|len|split; [exact R1|split; [exact R2|exact R3]]|reflexivity|].
    exists g'. split; [exact A5|]. split; [reflexivity|]. split; [exact A3|]. apply Hg'. apply sub_refl.
  Qed.
  Lemma c_fu_untyped x G : P_function G (opt x (L "$$J0") ++ L "9") (FnClass None false false true) NoAdjustment None G.
  Proof.
    split; [intros r; destruct x; eexists _, _; (split; reflexivity)|].
    intros fu rest w sg f n Hfu Hc HB. rewrite <- !app_assoc. unfold demangle_function_encoding.
    assert (H1 : eat_str (L "$$J0") (at_ (opt x (L "$$J0") ++ L "9" ++ rest) sg f n) = Ok (x, at_ (ch "9" :: rest) sg f n)).
    { destruct x; [apply eats_yes|]. apply eats_no. reflexivity. }
    eapply wp_step; [exact H1|]. eapply wp_step; [apply text_at|]. cbn [is_empty].
    assert (H2 : demangle_function_class (at_ (ch "9" :: rest) sg f n) = Ok (N.lor FC_ExternC FC_NoParameterList, at_ rest sg f n)).
    { unfold demangle_function_class. rewrite (bind_eq _ _ _ _ _ (next_at _ _ _ _ _ _)). reflexivity. }
    eapply wp_step; [exact H2|]. cbv zeta. set (fc := N.lor (N.lor FC_ExternC FC_NoParameterList) (if x then FC_ExternC else FC_None)).
    assert (H3 : this_adjust fc (at_ rest sg f n) = Ok (None, at_ rest sg f n)) by (unfold fc; destruct x; reflexivity).
    eapply wp_step; [exact H3|]. assert (H4 : contains fc FC_NoParameterList = true) by (unfold fc; destruct x; reflexivity). rewrite H4.
    assert (1 <= length (opt x (L "$$J0") ++ L "9")) by (destruct x; cbn; lia).
    apply wp_bind. eapply wp_new_hidden; [exact Hc|lia|]. intros C1. eapply wp_step; [reflexivity|].
    eapply (fun_at (NFSig fsig_default)); [exact C1|eapply ctx_len; exact Hc|apply ext_app|apply ext_app|rewrite app_length; cbn [length]; lia|lia| |reflexivity|].
    - apply fresh_new. eapply ctx_len; exact Hc.
    - cbn [set_function_class]. eexists. split; [|split; [reflexivity|]]; cbn [fs_class fs_quals fs_cc fs_ref fs_noexcept fs_ret fsig_default].
      + unfold fc. destruct x; repeat split.
      + split; [exact H4|]. repeat split.
  Qed.

  (** ** Symbols *)
  Lemma parse_at (t : str) fu rest sg f n (Q : handle -> st -> Prop) : ordinary (t ++ rest) ->
    wp okerr (demangle_declarator E (K fu)) Q (at_ (t ++ rest) sg f n) -> wp okerr (k_parse (K (S fu))) Q (at_ ((L "?" ++ t) ++ rest) sg f n).
  Proof.
    intros Ho H. cbn [knot_of k_parse]. unfold do_parse. rewrite <- app_assoc. eapply wp_step; [apply text_at|].
    change (starts_with (L ".") (L "?" ++ t ++ rest)) with false. cbv iota.
    assert (H1 : starts_with (L "??@") (L "?" ++ t ++ rest) = false).
    { unfold starts_with. change (strip_prefix (L "??@") (L "?" ++ t ++ rest)) with (strip_prefix (L "?@") (t ++ rest)). rewrite (proj2 Ho). reflexivity. }
    rewrite H1. change (L "?" ++ t ++ rest) with (ch "?" :: t ++ rest). eapply wp_step; [apply expect_yes|].
    eapply wp_step; [unfold demangle_special_intrinsic; rewrite (bind_eq _ _ _ _ _ (ordinary_none _ _ _ _ Ho)); reflexivity|]. exact H.
  Qed.
  Lemma not_conv_none X n0 w sg id nd x : idst X n0 w sg id nd x -> (forall nd, X w nd -> dsh w nd x) -> forall tp, nd <> NConv tp None.
  Proof.
    intros (_ & _ & [(_ & _ & H)|(_ & H)]) HX tp ->; [discriminate H|]. apply HX in H. exact H.
  Qed.
  (** The end of [demangle_declarator]. *)
  Lemma finish_at sg ss x qn w2 sg2 f2 n2 G3 rest h nm :
    ctx w2 sg2 f2 n2 G3 -> ext sg sg2 ->
    nameX (Xpost x) ss x (length sg) w2 sg2 qn -> fresh (length sg) w2 sg2 h nm -> is_sym nm = true ->
    wp okerr (modify KSym h (set_sym_name qn) ;;; o <- unqualified_identifier qn ;; uqn <- ok_or o InvalidDeclarator ;;
      n <- res_ KIdent uqn ;; match n with NConv _ None => fail InvalidDeclarator | _ => ret h end)
     (fun h' s => h' = h /\ exists sg3, s = at_ rest sg3 f2 n2 /\ ctx w2 sg3 f2 n2 G3 /\ ext sg sg3 /\ length sg3 = length sg2 /\
        nameX (Xpost x) ss x (length sg) w2 sg3 qn /\ fresh (length sg) w2 sg3 h (set_sym_name qn nm)) (at_ rest sg2 f2 n2).
  Proof.
    intros C2 Xs R1 R2 Hy.
    apply wp_bind. eapply (fresh_modify E B _ _ _ _ _ _ _ _ _ nm (length sg) sg); [exact C2|exact R2|exact Hy|exact Xs|lia|].
    intros C3 F3 S3 O3 L3. eapply nameX_upd in R1; [|exact (proj2 (proj2 R2))|exact Hy].
    destruct (unqualified_at _ _ _ _ _ _ f2 n2 rest _ R1) as (id & nd & I1 & I2). eapply wp_step; [exact I2|]. eapply wp_step; [reflexivity|].
    pose proof (not_conv_none _ _ _ _ _ _ _ I1 (fun _ H => H)) as Hnc. apply wp_bind. eapply wp_resolve; [apply I1|apply I1|].
    destruct nd; try (apply wp_ret; split; [reflexivity|]; eexists; repeat (split; [first [reflexivity|eassumption]|]); assumption).
    destruct target; [apply wp_ret; split; [reflexivity|]; eexists; repeat (split; [first [reflexivity|eassumption]|]); assumption|]. exfalso. eapply Hnc. reflexivity.
  Qed.
  Lemma nameX_imp (X Y : world -> node -> Prop) ss x n0 w sg qn : (forall nd, X w nd -> Y w nd) -> nameX X ss x n0 w sg qn -> nameX Y ss x n0 w sg qn.
  Proof.
    intros HXY (id & c0 & hs & nd & A1 & A2 & A3 & A4 & A5 & A6 & A7). exists id, c0, hs, nd. split; [exact A1|]. split; [exact A2|]. split; [exact A3|].
    split; [exact A4|]. split; [exact A5|]. split; [exact A6|]. destruct A7 as [A7|[A7 A8]]; [left; exact A7|right]. auto.
  Qed.
  (** Declarators: the symbol node is still open. *)
  Definition vdeclR a y ss x (n0 : nat) w sg h : Prop := exists qn sc vt, nameX (Xpost x) ss x n0 w sg qn /\
    fresh n0 w sg h (NVar (Some (VQualified qn)) (Some sc) (Some vt)) /\ daccess (Some sc) a /\ DT w vt y.
  Definition fdeclR k a sig ss x (n0 : nat) w sg h : Prop := exists qn sh, nameX (Xpost x) ss x n0 w sg qn /\
    fresh n0 w sg h (NFunc (Some qn) sh) /\ DF w sh k a sig.
  Lemma vdecl_at G t i G1 c ss G2 v a y G3 x : P_usym G t i G1 -> P_chain G1 c ss G2 -> P_variable G2 v a y G3 ->
      id_text E i ss None x -> rd 0 (t ++ c ++ v) G G3 (fun fu => demangle_declarator E (K fu)) (vdeclR a y ss x).
  Proof.
    intros Hu Hch Hv Hx fu rest w sg f n Hfu Hc HB. unfold demangle_declarator. replace ((t ++ c ++ v) ++ rest) with ((t ++ c) ++ (v ++ rest)) by (rewrite <- !app_assoc; reflexivity).
    pose proof (proj1 Hu) as Hl. apply wp_bind. eapply wp_mono; [eapply (qualified_at _ _ _ _ _ _ _ _ _ Hu Hch Hx); [len|exact Hc|len]|].
    intros qn s (w1 & sg1 & f1 & n1 & -> & X1 & S1 & L1 & C1 & R1). pose proof (ext_len _ _ S1).
    apply wp_bind. eapply wp_mono; [eapply Hv; [len|exact C1|len]|].
    intros h s (w2 & sg2 & f2 & n2 & -> & X2 & S2 & L2 & C2 & sc & vt & R2 & R3 & R4). pose proof (ext_len _ _ S2).
    eapply nameX_ext in R1; [|intros ? ? ? ?; apply Xpre_sub; assumption|exact X2|exact S2].
    eapply wp_mono; [eapply (finish_at sg ss x qn w2 sg2 f2 n2 G3 rest h (NVar None (Some sc) (Some vt))); [exact C2|eapply ext_trans; eauto| | |reflexivity]|].
    - eapply nameX_imp; [|eapply nameX_le; [|exact R1]; lia]. intros nd Hnd. remember None as no eqn:Hno in Hx. destruct Hx; [contradiction|apply Hnd|discriminate].
    - eapply fresh_le; [|exact R2]. lia.
    - intros h' s (-> & sg3 & -> & C3 & S3 & L3 & N3 & F3). eapply fin_intro; [eapply ext_trans; eauto|exact S3|len|exact C3|].
      exists qn, sc, vt. split; [exact N3|]. split; [exact F3|]. split; [exact R3|exact R4].
  Qed.
  Lemma vseal w0 n0 w sg f n G a y ss x h : ctx w sg f n G -> vdeclR a y ss x n0 w sg h -> length w0 <= n0 -> ext w0 w ->
    exists w', ext w0 w' /\ sub w w' /\ ctx w' sg f n G /\ symR (show_variable E a y (qualified (ss ++ [x]))) x w' h.
  Proof.
    intros Hc (qn & sc & vt & R1 & R2 & R3 & R4) H0 Hx. eapply seal; [exact Hc|exact R1|exact R2|reflexivity|reflexivity| |exact H0|exact Hx].
    intros w' Hs Hd. exists a, y, (qualified (ss ++ [x])). split; [exact R3|]. split; [eapply DT_sub; eauto|]. split; [exact Hd|reflexivity].
  Qed.
  Lemma fseal w0 n0 w sg f n G k a sig ss x h : ctx w sg f n G -> fdeclR k a sig ss x n0 w sg h -> length w0 <= n0 -> ext w0 w ->
    exists w', ext w0 w' /\ sub w w' /\ ctx w' sg f n G /\ symR (show_function E k a sig (qualified (ss ++ [x]))) x w' h.
  Proof.
    intros Hc (qn & sh & R1 & R2 & R3) H0 Hx. eapply seal; [exact Hc|exact R1|exact R2|reflexivity|reflexivity| |exact H0|exact Hx].
    intros w' Hs Hd. exists k, a, sig, (qualified (ss ++ [x])). split; [eapply DF_sub; eauto|]. split; [exact Hd|reflexivity].
  Qed.
  Lemma c_sy_variable G t i G1 c ss G2 v a y G3 x : P_usym G t i G1 -> (forall r, ordinary (t ++ c ++ r)) -> P_chain G1 c ss G2 -> P_variable G2 v a y G3 ->
      id_text E i ss None x -> P_symbol G (L "?" ++ t ++ c ++ v) (show_variable E a y (qualified (ss ++ [x]))) x G3.
  Proof.
    intros Hu Ho Hch Hv Hx. split; [eexists; reflexivity|]. intros fu rest w sg f n Hfu Hc HB. destruct fu as [|fu]; [len|].
    apply parse_at; [rewrite <- !app_assoc; apply Ho|]. pose proof (proj1 Hu) as Hl.
    eapply wp_mono; [eapply (vdecl_at _ _ _ _ _ _ _ _ _ _ _ _ Hu Hch Hv Hx); [len|exact Hc|len]|].
    intros h s (w1 & sg1 & f1 & n1 & -> & X1 & S1 & L1 & C1 & R1).
    destruct (vseal w _ _ _ _ _ _ _ _ _ _ _ C1 R1) as (w2 & X2 & _ & C2 & R2); [rewrite (ctx_len _ _ _ _ _ _ Hc); lia|exact X1|].
    eapply fin_intro; [exact X2|exact S1|len|exact C2|exact R2].
  Qed.
  Lemma fdecl_at G t i G1 c ss G2 v k a sig G3 x : P_usym G t i G1 -> P_chain G1 c ss G2 -> P_function G2 v k a sig G3 ->
      id_text E i ss (ret_of sig) x -> rd 0 (t ++ c ++ v) G G3 (fun fu => demangle_declarator E (K fu)) (fdeclR k a sig ss x).
  Proof.
    intros Hu Hch [Hh Hv] Hx fu rest w sg f n Hfu Hc HB. unfold demangle_declarator. replace ((t ++ c ++ v) ++ rest) with ((t ++ c) ++ (v ++ rest)) by (rewrite <- !app_assoc; reflexivity).
    pose proof (proj1 Hu) as Hl. apply wp_bind. eapply wp_mono; [eapply (qualified_at _ _ _ _ _ _ _ _ _ Hu Hch Hx); [len|exact Hc|len]|].
    intros qn s (w1 & sg1 & f1 & n1 & -> & X1 & S1 & L1 & C1 & R1). pose proof (ext_len _ _ S1).
    unfold demangle_encoded_symbol. apply wp_bind. destruct (Hh rest) as (hd & tl & Hhd & Hhc). eapply wp_step; [apply text_at|].
    assert (Hfc : first_char (v ++ rest) = Some hd) by (rewrite Hhd; reflexivity). rewrite Hfc. eapply wp_step; [reflexivity|]. rewrite Hhc.
    apply wp_bind. eapply wp_mono; [eapply Hv; [len|exact C1|len]|].
    intros h s (w2 & sg2 & f2 & n2 & -> & X2 & S2 & L2 & C2 & sh & R2 & R3). pose proof (ext_len _ _ S2).
    eapply nameX_ext in R1; [|intros ? ? ? ?; apply Xpre_sub; assumption|exact X2|exact S2].
    apply wp_bind. eapply wp_resolve; [exact (proj2 (proj2 R2))|reflexivity|]. destruct (DF_ret _ _ _ _ _ R3) as (snd' & N1 & N2 & N3).
    apply wp_bind. eapply wp_resolve; [eapply ctx_get; [exact C2|exact N1]|exact N2|].
    assert (Hxt : ext w w2 /\ ext sg sg2) by (split; eapply ext_trans; eauto). destruct Hxt as [Xw Xs].
    assert (R2' : fresh (length sg) w2 sg2 h (NFunc None sh)) by (eapply fresh_le; [|exact R2]; lia).
    assert (Hend : forall sg3, ctx w2 sg3 f2 n2 G3 -> nameX (Xpost x) ss x (length sg) w2 sg3 qn -> fresh (length sg) w2 sg3 h (NFunc None sh) -> ext sg sg3 -> length sg3 = length sg2 ->
      wp okerr (modify KSym h (set_sym_name qn) ;;; o <- unqualified_identifier qn ;; uqn <- ok_or o InvalidDeclarator ;;
        n <- res_ KIdent uqn ;; match n with NConv _ None => fail InvalidDeclarator | _ => ret h end)
       (fin w sg (length sg + 2 * length (t ++ c ++ v) - 0) rest G3 (fdeclR k a sig ss x (length sg))) (at_ rest sg3 f2 n2)).
    { intros sg3 C3 N3' F3 S3 L3. eapply wp_mono; [eapply (finish_at sg ss x qn w2 sg3 f2 n2 G3 rest h (NFunc None sh)); [exact C3|exact S3|exact N3'|exact F3|reflexivity]|].
      intros h' s (-> & sg4 & -> & C4 & S4 & L4 & N4 & F4). eapply fin_intro; [exact Xw|exact S4|len|exact C4|].
      exists qn, sh. split; [exact N4|]. split; [exact F4|exact R3]. }
    assert (R1' : nameX (Xpre i x) ss x (length sg) w2 sg2 qn) by (eapply nameX_le; [|exact R1]; lia).
    destruct R1' as (id & c0 & hs & nd & A1 & A2 & A3 & A4 & A5 & A6 & A7).
    assert (I2 : unqualified_identifier qn (at_ rest sg2 f2 n2) = Ok (Some id, at_ rest sg2 f2 n2)).
    { apply unq_eq with (c := c0) (hs := hs) (nd := nd); [apply A1|apply A2|exact A5|exact A6]. }
    eapply wp_step; [exact I2|]. eapply wp_step; [reflexivity|].
    assert (Hsame : (forall z, set_target z nd = nd) -> nameX (Xpost x) ss x (length sg) w2 sg2 qn ->
      wp okerr ((modify KIdent id (set_target (sig_return snd')) ;;; ret h)) (fun a0 s0 => wp okerr (modify KSym a0 (set_sym_name qn) ;;; o <- unqualified_identifier qn ;; uqn <- ok_or o InvalidDeclarator ;;
        n <- res_ KIdent uqn ;; match n with NConv _ None => fail InvalidDeclarator | _ => ret a0 end)
       (fin w sg (length sg + 2 * length (t ++ c ++ v) - 0) rest G3 (fdeclR k a sig ss x (length sg))) s0) (at_ rest sg2 f2 n2)).
    { intros Hst Hnm. apply wp_bind. eapply same_modify; [exact A5|exact A6|apply Hst|]. apply wp_ret. apply Hend; auto. }
    destruct A7 as [(J3 & J4 & J5)|(J3 & J4)].
    - apply Hsame; [destruct nd; try discriminate; reflexivity|]. exists id, c0, hs, nd.
      split; [exact A1|]. split; [exact A2|]. split; [exact A3|]. split; [exact A4|]. split; [exact A5|]. split; [exact A6|]. left. auto.
    - remember (ret_of sig) as rs eqn:Hrs. destruct Hx as [x ss r|d a0 ss cx r|a0 ss r]; [contradiction| |].
      + destruct J4 as [(tp & hc & ->) J4]. apply Hsame; [reflexivity|]. exists id, c0, hs, (NStructor tp (Some hc) d).
        split; [exact A1|]. split; [exact A2|]. split; [exact A3|]. split; [exact A4|]. split; [exact A5|]. split; [exact A6|]. right. split; [exact J3|exact J4].
      + destruct J4 as (tp & -> & Htp). apply wp_bind.
        eapply (fresh_modify E B _ _ _ _ _ _ _ _ _ _ (length sg) sg); [exact C2|exact J3|reflexivity|exact Xs|lia|].
        intros C3 F3 S3 O3 L3. cbn [set_target] in *. apply wp_ret.
        assert (Hfr : forall j nj, fresh (length sg) w2 sg2 j nj -> j <> id -> fresh (length sg) w2 (lset sg2 id (NConv tp (sig_return snd'))) j nj).
        { intros j nj (G1' & G2' & G3') Hj. split; [exact G1'|]. split; [exact G2'|]. rewrite O3 by exact Hj. exact G3'. }
        pose proof (proj2 (proj2 A1)) as Z1. pose proof (proj2 (proj2 A2)) as Z2. pose proof (proj2 (proj2 R2')) as Z3.
        apply Hend; [exact C3| |apply Hfr; [exact R2'|intros ->; congruence]|exact S3|exact L3].
        exists id, c0, hs, (NConv tp (sig_return snd')). split; [apply Hfr; [exact A1|intros ->; congruence]|]. split; [apply Hfr; [exact A2|intros ->; congruence]|].
        split; [exact A3|]. split; [exact A4|]. split; [apply F3|]. split; [reflexivity|]. right. split; [exact F3|].
        destruct (sig_return snd') as [rh|]; [|contradiction]. exists a0, r. split; [exact Htp|]. split; [exact N3|reflexivity].
  Qed.
  Lemma c_sy_function G t i G1 c ss G2 v k a sig G3 x : P_usym G t i G1 -> (forall r, ordinary (t ++ c ++ r)) -> P_chain G1 c ss G2 -> P_function G2 v k a sig G3 ->
      id_text E i ss (ret_of sig) x -> P_symbol G (L "?" ++ t ++ c ++ v) (show_function E k a sig (qualified (ss ++ [x]))) x G3.
  Proof.
    intros Hu Ho Hch Hv Hx. split; [eexists; reflexivity|]. intros fu rest w sg f n Hfu Hc HB. destruct fu as [|fu]; [len|].
    apply parse_at; [rewrite <- !app_assoc; apply Ho|]. pose proof (proj1 Hu) as Hl.
    eapply wp_mono; [eapply (fdecl_at _ _ _ _ _ _ _ _ _ _ _ _ _ Hu Hch Hv Hx); [len|exact Hc|len]|].
    intros h s (w1 & sg1 & f1 & n1 & -> & X1 & S1 & L1 & C1 & R1).
    destruct (fseal w _ _ _ _ _ _ _ _ _ _ _ _ C1 R1) as (w2 & X2 & _ & C2 & R2); [rewrite (ctx_len _ _ _ _ _ _ Hc); lia|exact X1|].
    eapply fin_intro; [exact X2|exact S1|len|exact C2|exact R2].
  Qed.
  (** ["_R"] as an operator. *)
  Lemma c_sy_variable_R G c ss G2 v a y G3 : P_chain G c ss G2 -> (forall d r, In d (L "01234") -> c <> d :: r) -> P_variable G2 v a y G3 ->
      P_symbol G (L "?" ++ L "?_R" ++ c ++ v) (show_variable E a y (qualified (ss ++ [[]]))) [] G3.
  Proof.
    intros Hch Hn Hv. eapply c_sy_variable; [apply (us_unnamed_at _ _ G (L "_R")); left; reflexivity| |exact Hch|exact Hv|constructor].
    intros r. apply R_ordinary; [apply Hch|exact Hn].
  Qed.
  Lemma c_sy_function_R G c ss G2 f k a sig G3 : P_chain G c ss G2 -> (forall d r, In d (L "01234") -> c <> d :: r) -> P_function G2 f k a sig G3 ->
      P_symbol G (L "?" ++ L "?_R" ++ c ++ f) (show_function E k a sig (qualified (ss ++ [[]]))) [] G3.
  Proof.
    intros Hch Hn Hv. eapply c_sy_function; [apply (us_unnamed_at _ _ G (L "_R")); left; reflexivity| |exact Hch|exact Hv|constructor].
    intros r. apply R_ordinary; [apply Hch|exact Hn].
  Qed.
End Syms.
