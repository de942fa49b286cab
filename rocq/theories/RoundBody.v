(** The round trip: bodies of types and template arguments.  Proof infrastructure for [Trip]. *)
From Verif Require Import Parser Utf8 Show Den Emit Grammar Lex Step Number Pend ReadAt Round RoundNames RoundTypes.

Lemma plain_pointer pt q a p r u c v t : pointer_code pt q a -> let x := pt ++ ext_code p r u ++ cv_code false c v :: t in
  is_tag_type x = false /\ is_pointer_type x = true /\ is_member_pointer x = Some false /\ starts (ch "6") (ext_code p r u ++ cv_code false c v :: t) = false.
Proof. intros [c0 v0| |]; [destruct c0, v0| |]; destruct p, r, u, c, v; repeat split. Qed.
Lemma plain_reference pt q a p r u m c v t : pointer_code pt q a -> a <> APointer -> let x := pt ++ ext_code p r u ++ cv_code m c v :: t in
  is_tag_type x = false /\ is_pointer_type x = true /\ is_member_pointer x = Some false /\ starts (ch "6") (ext_code p r u ++ cv_code m c v :: t) = false.
Proof. intros [c0 v0| |] Ha; [congruence| |]; destruct p, r, u, m, c, v; repeat split. Qed.
Lemma fn_pointer pt q a t : pointer_code pt q a -> let x := pt ++ ch "6" :: t in
  is_tag_type x = false /\ is_pointer_type x = true /\ is_member_pointer x = Some false.
Proof. intros [c0 v0| |]; [destruct c0, v0| |]; repeat split. Qed.
Lemma member_pointer pt q p r u c v t : pointer_code pt q APointer -> let x := pt ++ ext_code p r u ++ cv_code true c v :: t in
  is_tag_type x = false /\ is_pointer_type x = true /\ is_member_pointer x = Some true /\ starts (ch "8") (cv_code true c v :: t) = false.
Proof. intros H. inversion H as [c0 v0| |]; subst. destruct c0, v0; destruct p, r, u, c, v; repeat split. Qed.
Lemma member_fn_pointer pt q t : pointer_code pt q APointer -> let x := pt ++ ch "8" :: t in
  is_tag_type x = false /\ is_pointer_type x = true /\ is_member_pointer x = Some true.
Proof. intros H. inversion H as [c0 v0| |]; subst. destruct c0, v0; repeat split. Qed.
Lemma prim_tests k t : let x := prim_code k ++ t in is_tag_type x = false /\ is_pointer_type x = false /\ is_array_type x = false /\
  is_function_type x = false /\ is_custom_type x = false.
Proof. destruct k; repeat split. Qed.
Lemma prim_head k : exists p r, prim_code k = p ++ r /\ In p heads.
Proof.
  destruct k; lazymatch goal with
  | |- exists p r, prim_code ?k = _ /\ _ =>
    let c := eval cbn [prim_code] in (prim_code k) in
    first [exists c, []; split; [reflexivity|unfold heads; cbn [map In]; tauto]|
      eexists (L "_"), _; split; [reflexivity|unfold heads; cbn [map In]; tauto]]
  end.
Qed.
Lemma ptr_head pt q a t : pointer_code pt q a -> exists p r, pt ++ t = p ++ r /\ In p heads.
Proof. intros H. destruct (pointer_head _ _ _ H) as (p & Hp & r & ->). exists p, (r ++ t). rewrite <- app_assoc. auto. Qed.

Section Body.
  Variable E : env.
  Variable B : nat.
  Notation DT w := (dty E (cnt w) w).
  Notation DS w := (dstr E (cnt w) w).
  Notation DF w := (dfn E (cnt w) w).
  Notation okerr := (okerr E B).
  Notation ctx := (ctx E).
  Notation K := (knot_of E).
  Notation rd := (rd E B).
  Notation fin := (fin E).
  Notation P_tname := (P_tname E B).
  Notation P_qname := (P_qname E B).
  Notation P_targ := (P_targ E B).
  Notation P_symbol := (P_symbol E B).
  Notation P_body := (P_body E B).
  Notation P_mtype := (P_mtype E B).
  Notation P_fn := (P_fn E B).
  Notation pend := (pend E).
  Notation pend1 := (pend1 E).

  (** A fresh type node whose parts are known. *)
  Lemma node_at nd y w0 sg0 M G rest w sg f n : ctx w sg f n G -> ext w0 w -> ext sg0 sg -> length sg + 1 <= M -> M <= B ->
    dn E w nd y -> (forall q a c p, y <> TPtr q a c p) ->
    wp okerr (intern E nd) (fin w0 sg0 M rest G (fun w' sg' h => pend (length sg0) w' sg' h y)) (at_ rest sg f n).
  Proof.
    intros Hc Hw Hs HM HB Hd Hy. pose proof (ext_len _ _ Hs). eapply wp_new_hidden; [exact Hc|lia|]. intros C'.
    eapply fin_intro; [eapply ext_trans; [exact Hw|apply ext_app]|eapply ext_trans; [exact Hs|apply ext_app]|rewrite app_length; cbn; lia|exact C'|].
    destruct (fresh_new w sg nd (ctx_len _ _ _ _ _ _ Hc)) as (F1 & F2 & F3).
    assert (H1 : pend1 (length sg0) (w ++ [None]) (sg ++ [nd]) (length sg) y).
    { split; [lia|]. split; [exact F2|]. exists nd. split; [exact F3|]. eapply dn_sub; [apply sub_app|exact Hd]. }
    destruct y; try exact H1. exfalso. eapply Hy. reflexivity.
  Qed.
  (** A fresh pointer to a pending type. *)
  Lemma ptr_at q a cls cls' h y w0 sg0 M G rest w sg f n : ctx w sg f n G -> length w0 = length sg0 -> ext w0 w -> ext sg0 sg ->
    length sg + 1 <= M -> M <= B -> pend (length sg0) w sg h y -> opt_rel (fun h name => DS w KQual h (qualified name)) cls cls' ->
    wp okerr (intern E (NPtr q (Some a) cls h)) (fin w0 sg0 M rest G (fun w' sg' h => pend (length sg0) w' sg' h (TPtr q a cls' y))) (at_ rest sg f n).
  Proof.
    intros Hc Hl Hw Hs HM HB Hp Hcls. pose proof (ext_len _ _ Hs).
    destruct (half_settle E (length sg0) w0 w sg h y ltac:(lia) Hw ltac:(apply Hc) Hp) as (w1 & X1 & U1 & C1 & D1).
    assert (Hc1 : ctx w1 sg f n G) by (eapply ctx_mono; eauto).
    eapply wp_new_hidden; [exact Hc1|lia|]. intros C'.
    eapply fin_intro; [eapply ext_trans; [exact X1|apply ext_app]|eapply ext_trans; [exact Hs|apply ext_app]|rewrite app_length; cbn; lia|exact C'|].
    destruct (fresh_new w1 sg (NPtr q (Some a) cls h) (ctx_len _ _ _ _ _ _ Hc1)) as (F1 & F2 & F3).
    cbn [Pend.pend]. split; [lia|]. split; [exact F2|]. exists cls, h. split; [exact F3|]. split; [|split].
    - destruct D1 as (_ & D1 & _). apply hid_len in D1. rewrite (ctx_len _ _ _ _ _ _ Hc1) in D1. lia.
    - eapply opt_rel_mono; [|exact Hcls]. cbv beta. intros x z. apply DS_sub. eapply sub_trans; [exact U1|apply sub_app].
    - eapply pend1_ext; [apply ext_app|apply ext_app|exact D1].
  Qed.

  Lemma c_bo_prim G k : P_body G (prim_code k) (TPrim Q_None k) G.
  Proof.
    split; [apply prim_head|]. intros fu rest w sg f n Hfu Hc HB. destruct (prim_tests k rest) as (H1 & H2 & H3 & H4 & H5).
    unfold unq. eapply wp_step; [apply text_at|]. rewrite H1, H2, H3, H4, H5. unfold demangle_primitive_type.
    eapply wp_step; [apply prim_at|]. assert (1 <= length (prim_code k)) by (destruct k; cbn; lia).
    eapply node_at; [exact Hc|apply ext_refl|apply ext_refl|lia|lia|reflexivity|discriminate].
  Qed.
  Lemma c_bo_tag G k t nm G' : P_qname G t nm G' -> P_body G (tag_code k ++ t) (TTag Q_None k nm) G'.
  Proof.
    intros [Hl H]. split.
    { destruct k; [exists (L "V"), t|exists (L "U"), t|exists (L "T"), t|exists (L "W"), (ch "4" :: t)];
        (split; [reflexivity|unfold heads; cbn [map In]; tauto]). }
    intros fu rest w sg f n Hfu Hc HB. rewrite <- app_assoc. unfold unq. eapply wp_step; [apply text_at|].
    assert (H1 : is_tag_type (tag_code k ++ t ++ rest) = true) by (destruct k; reflexivity). rewrite H1. unfold demangle_class_type.
    assert (Htl : length (tag_code k) = 1 \/ length (tag_code k) = 2) by (destruct k; cbn; lia). rewrite app_length in Hfu, HB.
    assert (Hq : wp okerr (qn <- demangle_fully_qualified_type_name E (K (pred fu)) ;; intern E (NTag Q_None qn k))
      (fin w sg (length sg + 2 * length (tag_code k ++ t) - 0) rest G' (fun w' sg' h => pend (length sg) w' sg' h (TTag Q_None k nm))) (at_ (t ++ rest) sg f n)).
    { apply wp_bind. eapply wp_mono; [eapply H; [lia|exact Hc|lia]|]. intros qn s (w1 & sg1 & f1 & n1 & -> & X1 & S1 & L1 & C1 & R1).
      eapply node_at; [exact C1|exact X1|exact S1|len|len| |discriminate]. exists nm. auto. }
    destruct k.
    - eapply wp_step; [apply (next_at _ (ch "V"))|]. eapply wp_step; [reflexivity|]. exact Hq.
    - eapply wp_step; [apply (next_at _ (ch "U"))|]. eapply wp_step; [reflexivity|]. exact Hq.
    - eapply wp_step; [apply (next_at _ (ch "T"))|]. eapply wp_step; [reflexivity|]. exact Hq.
    - eapply wp_step; [apply (next_at _ (ch "W"))|]. eapply wp_step; [|exact Hq]. cbn [N.eqb]. 
      change ((ch "W" =? ch "T")%N) with false. change ((ch "W" =? ch "U")%N) with false. change ((ch "W" =? ch "V")%N) with false.
      change ((ch "W" =? ch "W")%N) with true. cbv iota. rewrite (bind_eq _ _ _ _ _ (eat_yes (ch "4") _ _ _ _)). reflexivity.
  Qed.
  Lemma c_bo_pointer G pt q a p r u t y G' : pointer_code pt q a -> P_mtype false G t y G' ->
      P_body G (pt ++ ext_code p r u ++ t) (TPtr (N.lor q (extq p r u)) a None y) G'.
  Proof.
    intros Hp [(c & v & t0 & Ht) H]. split; [eapply ptr_head; exact Hp|]. intros fu rest w sg f n Hfu Hc HB. rewrite <- !app_assoc.
    assert (Htr : t ++ rest = cv_code false c v :: t0 ++ rest) by (rewrite Ht; reflexivity).
    destruct (plain_pointer pt q a p r u c v (t0 ++ rest) Hp) as (H1 & H2 & H3 & H4). rewrite <- Htr in H1, H2, H3, H4.
    unfold unq. eapply wp_step; [apply text_at|]. rewrite H1, H2, H3. unfold demangle_pointer_type.
    eapply wp_step; [apply pcv_at; exact Hp|]. cbv iota beta. eapply wp_step; [apply eat_no; exact H4|]. cbv iota.
    apply wp_bind. eapply wp_step; [apply ext_at; rewrite Htr; apply cv_no_ext|].
    assert (Hpl : 1 <= length pt) by (destruct (pointer_at _ _ _ Hp); lia).
    apply wp_bind. eapply wp_mono; [eapply H; [len|exact Hc|len]|]. intros h s (w1 & sg1 & f1 & n1 & -> & X1 & S1 & L1 & C1 & R1).
    apply wp_ret. cbv iota beta. eapply ptr_at; [exact C1|eapply ctx_len; exact Hc|exact X1|exact S1|len|len|exact R1|exact I].
  Qed.
  Lemma c_bo_reference G pt q a p r u t y G' : pointer_code pt q a -> a <> APointer -> P_mtype true G t y G' ->
      P_body G (pt ++ ext_code p r u ++ t) (TPtr (N.lor q (extq p r u)) a None y) G'.
  Proof.
    intros Hp Ha [(c & v & t0 & Ht) H]. split; [eapply ptr_head; exact Hp|]. intros fu rest w sg f n Hfu Hc HB. rewrite <- !app_assoc.
    assert (Htr : t ++ rest = cv_code true c v :: t0 ++ rest) by (rewrite Ht; reflexivity).
    destruct (plain_reference pt q a p r u true c v (t0 ++ rest) Hp Ha) as (H1 & H2 & H3 & H4). rewrite <- Htr in H1, H2, H3, H4.
    unfold unq. eapply wp_step; [apply text_at|]. rewrite H1, H2, H3. unfold demangle_pointer_type.
    eapply wp_step; [apply pcv_at; exact Hp|]. cbv iota beta. eapply wp_step; [apply eat_no; exact H4|]. cbv iota.
    apply wp_bind. eapply wp_step; [apply ext_at; rewrite Htr; apply cv_no_ext|].
    assert (Hpl : 1 <= length pt) by (destruct (pointer_at _ _ _ Hp); lia).
    apply wp_bind. eapply wp_mono; [eapply H; [len|exact Hc|len]|]. intros h s (w1 & sg1 & f1 & n1 & -> & X1 & S1 & L1 & C1 & R1).
    apply wp_ret. cbv iota beta. eapply ptr_at; [exact C1|eapply ctx_len; exact Hc|exact X1|exact S1|len|len|exact R1|exact I].
  Qed.
  Lemma fn_pend n0 w sg h y : pend1 n0 w sg h y -> (exists q cc rq r ps v ne, y = TFun q cc rq r ps v ne) -> pend n0 w sg h y.
  Proof. intros H (q & cc & rq & r & ps & v & ne & ->). exact H. Qed.
  Lemma c_bo_fn_pointer G pt q a t y G' : pointer_code pt q a -> P_fn false G t y G' -> P_body G (pt ++ L "6" ++ t) (TPtr q a None y) G'.
  Proof.
    intros Hp H. split; [eapply ptr_head; exact Hp|]. intros fu rest w sg f n Hfu Hc HB. rewrite <- !app_assoc.
    destruct (fn_pointer pt q a (t ++ rest) Hp) as (H1 & H2 & H3). change (L "6" ++ t ++ rest) with (ch "6" :: t ++ rest).
    unfold unq. eapply wp_step; [apply text_at|]. rewrite H1, H2, H3. unfold demangle_pointer_type.
    eapply wp_step; [apply pcv_at; exact Hp|]. cbv iota beta. eapply wp_step; [apply eat_yes|]. cbv iota.
    assert (Hpl : 1 <= length pt) by (destruct (pointer_at _ _ _ Hp); lia).
    apply wp_bind. apply wp_bind. eapply wp_mono; [eapply H; [len|exact Hc|len]|]. intros h s (w1 & sg1 & f1 & n1 & -> & X1 & S1 & L1 & C1 & R1 & R2).
    apply wp_ret. cbv iota beta. eapply ptr_at; [exact C1|eapply ctx_len; exact Hc|exact X1|exact S1|len|len|apply fn_pend; assumption|exact I].
  Qed.
  Lemma c_bo_member_pointer G pt q p r u c v t nm G1 t' y G2 :
      pointer_code pt q APointer -> P_qname G t nm G1 -> P_body G1 t' y G2 ->
      P_body G (pt ++ ext_code p r u ++ [cv_code true c v] ++ t ++ t')
        (TPtr (N.lor q (extq p r u)) APointer (Some nm) (replace_quals (cvq c v) y)) G2.
  Proof.
    intros Hp [Hl Hq] Hb. split; [eapply ptr_head; exact Hp|]. intros fu rest w sg f n Hfu Hc HB. rewrite <- !app_assoc. cbn [app].
    destruct (member_pointer pt q p r u c v (t ++ t' ++ rest) Hp) as (H1 & H2 & H3 & H4).
    unfold unq. eapply wp_step; [apply text_at|]. rewrite H1, H2, H3. unfold demangle_member_pointer_type.
    eapply wp_step; [apply pcv_at; exact Hp|]. cbv iota beta. eapply wp_step; [apply ext_at; apply cv_no_ext|].
    eapply wp_step; [apply eat_no; exact H4|]. cbv iota. eapply wp_step; [apply quals_at|]. cbv iota beta.
    assert (Hpl : 1 <= length pt) by (destruct (pointer_at _ _ _ Hp); lia).
    apply wp_bind. eapply wp_mono; [eapply Hq; [len|exact Hc|len]|]. intros cls s (w1 & sg1 & f1 & n1 & -> & X1 & S1 & L1 & C1 & R1).
    apply wp_bind. eapply wp_mono; [eapply (drop_at _ _ _ _ _ _ Hb); [len|exact C1|len]|]. intros h s (w2 & sg2 & f2 & n2 & -> & X2 & S2 & L2 & C2 & R2).
    pose proof (ext_len _ _ S1). pose proof (ext_len _ _ S2).
    destruct (pend_hid _ _ _ _ _ _ R2) as [A1 A2]. destruct (pend_node _ _ _ _ _ _ R2) as (nd & A3 & A4).
    apply wp_bind. eapply (fresh_modify E B _ _ _ _ _ _ _ _ _ nd (length sg1) sg1); [exact C2|split; [exact A1|split; [exact A2|exact A3]]|exact A4|exact S2|lia|].
    intros C3 F3 S3 _ L3. eapply ptr_at; [exact C3|eapply ctx_len; exact Hc|eapply ext_trans; eauto|eapply ext_trans; eauto|len|len| |].
    - eapply pend_le; [|apply pend_upd; [exact A3|exact R2]]. lia.
    - cbn [opt_rel]. eapply DS_sub; [apply ext_sub; exact X2|exact R1].
  Qed.
  Lemma c_bo_member_fn_pointer G pt q t nm G1 t' y G2 :
      pointer_code pt q APointer -> P_qname G t nm G1 -> P_fn true G1 t' y G2 ->
      P_body G (pt ++ L "8" ++ t ++ t') (TPtr q APointer (Some nm) y) G2.
  Proof.
    intros Hp [Hl Hq] Hf. split; [eapply ptr_head; exact Hp|]. intros fu rest w sg f n Hfu Hc HB. rewrite <- !app_assoc.
    change (L "8" ++ ?x) with (ch "8" :: x).
    destruct (member_fn_pointer pt q (t ++ t' ++ rest) Hp) as (H1 & H2 & H3).
    unfold unq. eapply wp_step; [apply text_at|]. rewrite H1, H2, H3. unfold demangle_member_pointer_type.
    eapply wp_step; [apply pcv_at; exact Hp|]. cbv iota beta. eapply wp_step; [apply (ext_at _ _ _ false false false); reflexivity|].
    eapply wp_step; [apply eat_yes|]. cbv iota.
    assert (Hpl : 1 <= length pt) by (destruct (pointer_at _ _ _ Hp); lia).
    apply wp_bind. eapply wp_mono; [eapply Hq; [len|exact Hc|len]|]. intros cls s (w1 & sg1 & f1 & n1 & -> & X1 & S1 & L1 & C1 & R1).
    apply wp_bind. eapply wp_mono; [eapply Hf; [len|exact C1|len]|]. intros h s (w2 & sg2 & f2 & n2 & -> & X2 & S2 & L2 & C2 & R2 & R3).
    pose proof (ext_len _ _ S1). pose proof (ext_len _ _ S2). change (N.lor q (extq false false false)) with (N.lor q 0). rewrite N.lor_0_r.
    eapply ptr_at; [exact C2|eapply ctx_len; exact Hc|eapply ext_trans; eauto|eapply ext_trans; eauto|len|len| |].
    - apply fn_pend; [|exact R3]. eapply pend1_le; [|exact R2]. lia.
    - cbn [opt_rel]. eapply DS_sub; [apply ext_sub; exact X2|exact R1].
  Qed.

  (** ** Arrays *)
  Lemma dims_len t ds : dims t ds -> length ds <= length t.
  Proof. induction 1; [cbn; lia|]. apply num_len in H. rewrite app_length. cbn. lia. Qed.
  Lemma dims_at t ds : dims t ds -> forall loop acc rest w sg f n G, length t < loop -> ctx w sg f n G -> length sg + length ds <= B ->
    wp okerr (dims_loop E loop (N.of_nat (length ds)) acc) (fin w sg (length sg + length ds) rest G
      (fun w' _ l => exists hs, l = rev acc ++ hs /\ Forall2 (fun h v => wget w' h = Some (NInt v false)) hs ds)) (at_ (t ++ rest) sg f n).
  Proof.
    induction 1 as [|t d t' ds Hn Hd IH]; intros loop acc rest w sg f n G Hlo Hc HB.
    - destruct loop as [|loop]; [cbn in Hlo; lia|]. apply wp_ret. eapply fin_intro; [apply ext_refl|apply ext_refl|cbn; lia|exact Hc|].
      exists []. split; [rewrite app_nil_r; reflexivity|constructor].
    - pose proof (num_len _ _ Hn). destruct loop as [|loop]; [cbn in Hlo; lia|]. rewrite app_length in Hlo. cbn [length] in *. cbn [dims_loop].
      destruct (N.eqb_spec (N.of_nat (S (length ds))) 0); [lia|]. rewrite <- app_assoc.
      eapply wp_step; [apply (number_at t d false); exists t; auto|]. cbv iota beta. apply wp_bind. eapply wp_new_known; [exact Hc|lia|].
      intros C1 M1. replace (N.of_nat (S (length ds)) - 1)%N with (N.of_nat (length ds)) by lia.
      eapply wp_mono; [eapply IH; [lia|exact C1|rewrite app_length; cbn; lia]|]. intros l s Hf.
      eapply fin_mono; [exact Hf|apply ext_app|apply ext_app|rewrite app_length; cbn; lia|].
      intros w' sg' Xw _ _ (hs & -> & Hhs). exists (length sg :: hs). split; [cbn [rev]; rewrite <- app_assoc; reflexivity|].
      constructor; [|exact Hhs]. apply (ext_sub _ _ Xw). apply M1.
  Qed.
  Lemma array_at G rt ds dt (mid : str) q t y G' : num_text rt (N.of_nat (length ds)) -> ds <> [] -> dims dt ds -> P_body G t y G' ->
    (forall rest sg f n, (c <- eat_str (L "$$C") ;;
       (if c then '(q, is_member) <- demangle_qualifiers ;; if is_member : bool then fail InvalidArrayType else ret q else ret Q_None))
        (at_ (mid ++ t ++ rest) sg f n) = Ok (q, at_ (t ++ rest) sg f n)) ->
    P_body G (L "Y" ++ rt ++ dt ++ mid ++ t) (TArr q ds y) G'.
  Proof.
    intros Hr Hne Hd Hb Hm. split; [eexists (L "Y"), _; split; [reflexivity|unfold heads; cbn [map In]; tauto]|].
    pose proof (num_len _ _ Hr) as Hrl. pose proof (dims_len _ _ Hd) as Hdl.
    intros fu rest w sg f n Hfu Hc HB. rewrite <- !app_assoc. change (L "Y" ++ ?x) with (ch "Y" :: x).
    unfold unq. eapply wp_step; [apply text_at|].
    change (is_tag_type (ch "Y" :: rt ++ dt ++ mid ++ t ++ rest)) with false.
    change (is_pointer_type (ch "Y" :: rt ++ dt ++ mid ++ t ++ rest)) with false.
    change (is_array_type (ch "Y" :: rt ++ dt ++ mid ++ t ++ rest)) with true. cbv iota. unfold demangle_array_type.
    eapply wp_step; [apply expect_yes|]. eapply wp_step; [apply (number_at rt (N.of_nat (length ds)) false); exists rt; auto|]. cbv iota beta.
    assert (Hnz : (N.of_nat (length ds) =? 0)%N = false) by (apply N.eqb_neq; destruct ds; [congruence|cbn; lia]). rewrite Hnz. cbn [orb].
    eapply wp_step; [apply text_at|]. apply wp_bind. eapply wp_mono; [eapply (dims_at dt ds Hd); [len|exact Hc|len]|].
    intros l s (w1 & sg1 & f1 & n1 & -> & X1 & S1 & L1 & C1 & hs & -> & R1). cbn [rev app].
    apply wp_bind. eapply wp_new_known; [exact C1|len|]. intros C2 M2.
    apply (wp_assoc E B (eat_str (L "$$C"))). eapply wp_step; [apply Hm|].
    apply wp_bind. eapply wp_mono; [eapply (drop_known _ _ _ _ _ _ Hb); [len|exact C2|len]|].
    intros el s (w3 & sg3 & f3 & n3 & -> & X3 & S3 & L3 & C3 & R3).
    eapply node_at; [exact C3|eapply ext_trans; [exact X1|]; eapply ext_trans; [apply ext_app|exact X3]|
      eapply ext_trans; [exact S1|]; eapply ext_trans; [apply ext_app|exact S3]|len|len| |discriminate].
    exists ds, y. split; [reflexivity|]. split; [exact R3|]. exists hs. split; [apply (ext_sub _ _ X3); apply M2|].
    eapply Forall2_mono; [|exact R1]. cbv beta. intros h v Hv. apply (ext_sub _ _ X3). apply M2. exact Hv.
  Qed.
  Lemma heads_strip p t : (exists q r, t = q ++ r /\ In q heads) -> (forall r, Forall (fun q => strip_prefix p (q ++ r) = None) heads) ->
    forall r, strip_prefix p (t ++ r) = None.
  Proof. intros (q & r0 & -> & Hq) H r. rewrite <- app_assoc. exact (proj1 (Forall_forall _ _) (H (r0 ++ r)) q Hq). Qed.
  Lemma c_bo_array G rt ds dt t y G' : num_text rt (N.of_nat (length ds)) -> ds <> [] -> dims dt ds -> P_body G t y G' ->
      P_body G (L "Y" ++ rt ++ dt ++ t) (TArr Q_None ds y) G'.
  Proof.
    intros Hr Hne Hd Hb. apply (array_at G rt ds dt []); auto. intros rest sg f n. cbn [app].
    destruct Hb as [Hh _]. rewrite (bind_eq _ _ _ _ _ (eats_no (L "$$C") (t ++ rest) _ _ _ (heads_strip (L "$$C") t Hh
      ltac:(intros r0; repeat (constructor; [reflexivity|]); constructor) rest))). reflexivity.
  Qed.
  Lemma c_bo_array_cv G rt ds dt c v t y G' : num_text rt (N.of_nat (length ds)) -> ds <> [] -> dims dt ds -> P_body G t y G' ->
      P_body G (L "Y" ++ rt ++ dt ++ L "$$C" ++ [cv_code false c v] ++ t) (TArr (cvq c v) ds y) G'.
  Proof.
    intros Hr Hne Hd Hb. change (L "$$C" ++ [cv_code false c v] ++ t) with ((L "$$C" ++ [cv_code false c v]) ++ t).
    apply (array_at G rt ds dt (L "$$C" ++ [cv_code false c v])); auto. intros rest sg f n. rewrite <- app_assoc. cbn [app].
    rewrite (bind_eq _ _ _ _ _ (eats_yes (L "$$C") _ _ _ _)). rewrite (bind_eq _ _ _ _ _ (quals_at _ _ _ _ _ _ _)). reflexivity.
  Qed.

  (** ** Functions and custom types *)
  Lemma c_bo_fn G t y G' : P_fn false G t y G' -> P_body G (L "$$A6" ++ t) y G'.
  Proof.
    intros H. split; [eexists (L "$$A6"), _; split; [reflexivity|unfold heads; cbn [map In]; tauto]|].
    intros fu rest w sg f n Hfu Hc HB. rewrite <- !app_assoc. unfold unq. eapply wp_step; [apply text_at|].
    change (is_tag_type (L "$$A6" ++ t ++ rest)) with false. change (is_pointer_type (L "$$A6" ++ t ++ rest)) with false.
    change (is_array_type (L "$$A6" ++ t ++ rest)) with false. change (is_function_type (L "$$A6" ++ t ++ rest)) with true. cbv iota.
    eapply wp_step; [apply eats_no; reflexivity|]. cbv iota. eapply wp_step; [apply eats_yes|]. cbv iota.
    eapply wp_mono; [eapply H; [len|exact Hc|len]|]. intros h s Hf. eapply fin_mono; [exact Hf|apply ext_refl|apply ext_refl|len|].
    intros w' sg' _ _ _ [R1 R2]. apply fn_pend; assumption.
  Qed.
  Lemma c_bo_member_fn G t y G' : P_fn true G t y G' -> P_body G (L "$$A8@@" ++ t) y G'.
  Proof.
    intros H. split; [eexists (L "$$A8@@"), _; split; [reflexivity|unfold heads; cbn [map In]; tauto]|].
    intros fu rest w sg f n Hfu Hc HB. rewrite <- !app_assoc. unfold unq. eapply wp_step; [apply text_at|].
    change (is_tag_type (L "$$A8@@" ++ t ++ rest)) with false. change (is_pointer_type (L "$$A8@@" ++ t ++ rest)) with false.
    change (is_array_type (L "$$A8@@" ++ t ++ rest)) with false. change (is_function_type (L "$$A8@@" ++ t ++ rest)) with true. cbv iota.
    eapply wp_step; [apply eats_yes|]. cbv iota.
    eapply wp_mono; [eapply H; [len|exact Hc|len]|]. intros h s Hf. eapply fin_mono; [exact Hf|apply ext_refl|apply ext_refl|len|].
    intros w' sg' _ _ _ [R1 R2]. apply fn_pend; assumption.
  Qed.
  Lemma c_bo_custom G t x G' : P_tname G t x G' -> P_body G (L "?" ++ t ++ L "@") (TCustom Q_None x) G'.
  Proof.
    intros [Hl H]. split; [eexists (L "?"), _; split; [reflexivity|unfold heads; cbn [map In]; tauto]|].
    intros fu rest w sg f n Hfu Hc HB. rewrite <- !app_assoc. unfold unq. change (L "?" ++ ?x) with (ch "?" :: x). eapply wp_step; [apply text_at|].
    change (is_tag_type (ch "?" :: t ++ L "@" ++ rest)) with false. change (is_pointer_type (ch "?" :: t ++ L "@" ++ rest)) with false.
    change (is_array_type (ch "?" :: t ++ L "@" ++ rest)) with false. change (is_function_type (ch "?" :: t ++ L "@" ++ rest)) with false.
    change (is_custom_type (ch "?" :: t ++ L "@" ++ rest)) with true. cbv iota. unfold demangle_custom_type.
    eapply wp_step; [apply expect_yes|]. apply wp_bind. eapply wp_mono; [eapply H; [len|exact Hc|len]|].
    intros id s (w1 & sg1 & f1 & n1 & -> & X1 & S1 & L1 & C1 & R1). change (L "@" ++ rest) with (ch "@" :: rest).
    eapply wp_step; [apply eat_yes|]. cbv iota. eapply node_at; [exact C1|exact X1|exact S1|len|len| |discriminate]. exists x. auto.
  Qed.
End Body.
