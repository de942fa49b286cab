(** Well-formed node graphs: every handle resolves at its kind, the graph is acyclic, and
    the strings in it are made of permitted characters.  Proof infrastructure. *)
From Verif Require Import Syntax.

(** What a reference demands of the node it points to. *)
Inductive xkind := KK (k : kind) | KInts | KIdents.

Definition opt_kid (k : kind) (o : option handle) : list (xkind * handle) :=
  match o with Some h => [(KK k, h)] | None => [] end.
Definition fsig_kids (f : fsig) := opt_kid KType (fs_ret f) ++ opt_kid KNodes (fs_params f).

(** The references held by a node. *)
Definition kids (n : node) : list (xkind * handle) :=
  match n with
  | NPrim _ _ => []
  | NFSig f => fsig_kids f
  | NThunk f _ => fsig_kids f
  | NPtr _ _ cls p => opt_kid KQual cls ++ [(KK KType, p)]
  | NTag _ qn _ => [(KK KQual, qn)]
  | NArr _ dims el => [(KInts, dims); (KK KType, el)]
  | NCustom _ id => [(KK KIdent, id)]
  | NVcall tp _ => opt_kid KNodes tp
  | NDyn tp id _ => opt_kid KNodes tp ++
                    match id with DVariable h => [(KK KVar, h)] | DName h => [(KK KQual, h)] end
  | NNamed tp _ => opt_kid KNodes tp
  | NIntrinsic tp _ => opt_kid KNodes tp
  | NLitOp tp _ => opt_kid KNodes tp
  | NLsg tp _ _ => opt_kid KNodes tp
  | NConv tp target => opt_kid KNodes tp ++ opt_kid KType target
  | NStructor tp cls _ => opt_kid KNodes tp ++ opt_kid KIdent cls
  | NRtti tp _ _ _ _ => opt_kid KNodes tp
  | NNodes l => map (pair (KK KAny)) l
  | NQual c => [(KIdents, c)]
  | NTpr sym _ _ _ => opt_kid KSym sym
  | NInt _ _ => []
  | NMd5 h => [(KK KQual, h)]
  | NSpecial name target _ => (KK KQual, name) :: opt_kid KQual target
  | NLsgVar name _ => [(KK KQual, name)]
  | NStrLit name _ _ _ => opt_kid KQual name
  | NVar name _ ty => match name with Some (VQualified h) => [(KK KQual, h)] | _ => [] end ++ opt_kid KType ty
  | NFunc name sig => opt_kid KQual name ++ [(KK KSig, sig)]
  end.

Definition kind_at (sg : store) (x : xkind) (h : handle) : Prop :=
  match x with
  | KK k => exists n, nth_error sg h = Some n /\ hkind k n = true
  | KInts => exists l, nth_error sg h = Some (NNodes l) /\
                       Forall (fun i => exists v neg, nth_error sg i = Some (NInt v neg)) l
  | KIdents => exists l, nth_error sg h = Some (NNodes l) /\
                         Forall (fun i => exists n, nth_error sg i = Some n /\ hkind KIdent n = true) l
  end.

Section Wf.
  Variable okc : N -> Prop.
  Definition oks (s : str) : Prop := Forall okc s.

  Definition local_ok (n : node) : Prop :=
    match n with
    | NPtr _ a _ _ => a <> None
    | NNamed _ s | NLitOp _ s | NStrLit _ s _ _ => oks s
    | NVar name _ _ => name <> None
    | _ => True
    end.

  Definition node_ok (sg : store) (n : node) : Prop :=
    local_ok n /\ forall x c, In (x, c) (kids n) -> kind_at sg x c.

  (** [wf sg P h]: the graph below [h] is finite (so acyclic), well-kinded, and stays in [P]. *)
  Inductive wf (sg : store) (P : handle -> Prop) : handle -> Prop :=
  | wf_intro h n : nth_error sg h = Some n -> P h -> node_ok sg n ->
      (forall x c, In (x, c) (kids n) -> wf sg P c) -> wf sg P h.

  Definition wfk sg P k h := wf sg P h /\ kind_at sg (KK k) h.

  Lemma wf_inv sg P h : wf sg P h -> exists n, nth_error sg h = Some n /\ P h /\ node_ok sg n /\
    forall x c, In (x, c) (kids n) -> wf sg P c.
  Proof. destruct 1; eauto 8. Qed.

  Lemma wf_mono sg (P Q : handle -> Prop) h : (forall i, P i -> Q i) -> wf sg P h -> wf sg Q h.
  Proof. intros HPQ. induction 1; econstructor; eauto. Qed.
  Lemma wfk_mono sg (P Q : handle -> Prop) k h : (forall i, P i -> Q i) -> wfk sg P k h -> wfk sg Q k h.
  Proof. intros H [H1 H2]; split; eauto using wf_mono. Qed.

  Lemma wf_lt sg P h : wf sg P h -> h < length sg.
  Proof. destruct 1 as [h n Hn]. apply nth_error_Some. congruence. Qed.

  Lemma wf_bound sg P h : wf sg P h -> wf sg (fun i => P i /\ i < length sg) h.
  Proof.
    induction 1 as [h n Hn HP Hok Hk IH]. econstructor; eauto.
    split; [assumption|]. apply nth_error_Some. congruence.
  Qed.

  (** ** Extension: old nodes are unchanged. *)
  Definition ext (sg sg' : store) : Prop :=
    forall i n, nth_error sg i = Some n -> nth_error sg' i = Some n.

  Lemma ext_refl sg : ext sg sg.
  Proof. intros i n H; exact H. Qed.
  Lemma ext_trans a b c : ext a b -> ext b c -> ext a c.
  Proof. unfold ext; auto. Qed.
  Lemma ext_length a b : ext a b -> length a <= length b.
  Proof.
    intros H. destruct a as [|x a]; [cbn; lia|].
    destruct (nth_error (x :: a) (length a)) as [m|] eqn:Em.
    - apply H in Em. assert (nth_error b (length a) <> None) as Hb by congruence.
      apply nth_error_Some in Hb. cbn. lia.
    - apply nth_error_None in Em. cbn in Em. lia.
  Qed.
  Lemma ext_app a t : ext a (a ++ t).
  Proof.
    intros i n H. rewrite nth_error_app1; [assumption|]. apply nth_error_Some. congruence.
  Qed.
  Lemma kind_at_ext a b x h : ext a b -> kind_at a x h -> kind_at b x h.
  Proof.
    intros He. destruct x; cbn.
    - intros (n & Hn & Hk). eauto.
    - intros (l & Hl & Hf). exists l. split; [eauto|]. eapply Forall_impl; [|eassumption].
      intros i (v & neg & Hi). eauto.
    - intros (l & Hl & Hf). exists l. split; [eauto|]. eapply Forall_impl; [|eassumption].
      intros i (n & Hi & Hk). eauto.
  Qed.
  Lemma node_ok_ext a b n : ext a b -> node_ok a n -> node_ok b n.
  Proof. intros He [H1 H2]. split; [assumption|]. intros. eapply kind_at_ext; eauto. Qed.
  Lemma wf_ext a b P h : ext a b -> wf a P h -> wf b P h.
  Proof. intros He. induction 1. econstructor; eauto using node_ok_ext. Qed.
  Lemma wfk_ext a b P k h : ext a b -> wfk a P k h -> wfk b P k h.
  Proof. intros He [H1 H2]. split; eauto using wf_ext, kind_at_ext. Qed.
  Lemma wf_ext_bound a b P h : ext a b -> wf a P h -> wf b (fun i => P i /\ i < length a) h.
  Proof. intros He H. eapply wf_ext; [eassumption|]. apply wf_bound; assumption. Qed.

  (** ** Reachability and acyclicity. *)
  Inductive reach (sg : store) : handle -> handle -> Prop :=
  | reach_refl h : reach sg h h
  | reach_step h n x c k : nth_error sg h = Some n -> In (x, c) (kids n) -> reach sg c k -> reach sg h k.

  Lemma reach_trans sg a b c : reach sg a b -> reach sg b c -> reach sg a c.
  Proof. induction 1; intros; [assumption|]. econstructor; eauto. Qed.

  Lemma wf_acyclic sg P h : wf sg P h ->
    forall n x c, nth_error sg h = Some n -> In (x, c) (kids n) -> ~ reach sg c h.
  Proof.
    induction 1 as [h n Hn HP Hok Hk IH]. intros n' x c Hn' Hc Hr.
    assert (n' = n) by congruence. subst n'.
    inversion Hr as [? e1 | ? m y d ? Hm Hd Hr']; subst.
    - exact (IH x h Hc n x h Hn Hc Hr).
    - apply (IH x c Hc m y d Hm Hd). eapply reach_trans; [eassumption|].
      econstructor; eauto. constructor.
  Qed.

  Lemma wf_avoid_or sg P h : wf sg P h -> forall j, wf sg (fun i => P i /\ i <> j) h \/ reach sg h j.
  Proof.
    induction 1 as [h n Hn HP Hok Hk IH]. intros j.
    destruct (Nat.eq_dec h j) as [->|Hne]; [right; constructor|].
    assert ((forall x c, In (x, c) (kids n) -> wf sg (fun i => P i /\ i <> j) c) \/
            exists x c, In (x, c) (kids n) /\ reach sg c j) as [Hall|(x & c & Hc & Hr)].
    { clear Hn Hok Hk. induction (kids n) as [|[x c] l IHl].
      - left. intros x c [].
      - destruct (IH x c (or_introl eq_refl) j) as [Hw|Hr].
        + destruct IHl as [Hall|(y & d & Hd & Hr)].
          * intros y d Hd. apply (IH y d). right; assumption.
          * left. intros y d [Heq|Hd]; [congruence|eauto].
          * right. exists y, d. split; [right; assumption|assumption].
        + right. exists x, c. split; [left; reflexivity|assumption]. }
    - left. econstructor; eauto.
    - right. econstructor; eauto.
  Qed.

  (** The children of [h] never lead back to [h]. *)
  Lemma wf_kid_avoid sg P h n x c : wf sg P h -> nth_error sg h = Some n -> In (x, c) (kids n) ->
    wf sg (fun i => P i /\ i <> h) c.
  Proof.
    intros Hw Hn Hc. destruct (wf_inv _ _ _ Hw) as (n' & Hn' & HP & Hok & Hk).
    assert (n' = n) by congruence. subst n'.
    destruct (wf_avoid_or _ _ _ (Hk _ _ Hc) h) as [H|H]; [assumption|].
    exfalso. eapply wf_acyclic; eauto.
  Qed.

  (** ** Updates *)
  Lemma upd_length sg j n : length (upd sg j n) = length sg.
  Proof. revert j. induction sg as [|m sg IH]; intros [|j]; cbn; auto. Qed.
  Lemma nth_upd_same sg j n m : nth_error sg j = Some m -> nth_error (upd sg j n) j = Some n.
  Proof. revert j. induction sg as [|x sg IH]; intros [|j]; cbn; auto; discriminate. Qed.
  Lemma nth_upd_other sg j n i : i <> j -> nth_error (upd sg j n) i = nth_error sg i.
  Proof. revert i j. induction sg as [|x sg IH]; intros [|i] [|j] H; cbn; auto; congruence. Qed.

  (** Same constructor, and the node arrays and integers are not touched. *)
  Definition sim (n n' : node) : Prop :=
    match n, n' with
    | NPrim _ _, NPrim _ _ | NFSig _, NFSig _ | NThunk _ _, NThunk _ _ | NPtr _ _ _ _, NPtr _ _ _ _
    | NTag _ _ _, NTag _ _ _ | NArr _ _ _, NArr _ _ _ | NCustom _ _, NCustom _ _ | NVcall _ _, NVcall _ _
    | NDyn _ _ _, NDyn _ _ _ | NNamed _ _, NNamed _ _ | NIntrinsic _ _, NIntrinsic _ _
    | NLitOp _ _, NLitOp _ _ | NLsg _ _ _, NLsg _ _ _ | NConv _ _, NConv _ _
    | NStructor _ _ _, NStructor _ _ _ | NRtti _ _ _ _ _, NRtti _ _ _ _ _ | NQual _, NQual _
    | NTpr _ _ _ _, NTpr _ _ _ _ | NMd5 _, NMd5 _ | NSpecial _ _ _, NSpecial _ _ _
    | NLsgVar _ _, NLsgVar _ _ | NStrLit _ _ _ _, NStrLit _ _ _ _ | NVar _ _ _, NVar _ _ _
    | NFunc _ _, NFunc _ _ => True
    | NNodes _, _ | NInt _ _, _ => n' = n
    | _, _ => False
    end.
  Lemma sim_hkind n n' k : sim n n' -> hkind k n = hkind k n'.
  Proof. destruct n, n'; cbn; intros H; try contradiction; try discriminate; try (injection H; intros; subst); destruct k; reflexivity. Qed.
  Lemma sim_nodes n n' l : sim n n' -> n = NNodes l -> n' = n.
  Proof. intros H ->. exact H. Qed.
  Lemma sim_int n n' v b : sim n n' -> n = NInt v b -> n' = n.
  Proof. intros H ->. exact H. Qed.

  Lemma kind_at_upd sg j n n' x h : nth_error sg j = Some n -> sim n n' ->
    kind_at sg x h -> kind_at (upd sg j n') x h.
  Proof.
    intros Hj Hs. destruct x; cbn.
    - intros (m & Hm & Hk). destruct (Nat.eq_dec h j) as [->|Hne].
      + exists n'. split; [eapply nth_upd_same; eassumption|].
        assert (m = n) by congruence. subst m. rewrite <- (sim_hkind _ _ _ Hs). assumption.
      + exists m. rewrite nth_upd_other by assumption. auto.
    - intros (l & Hl & Hf). exists l. split.
      + destruct (Nat.eq_dec h j) as [->|Hne].
        * assert (n = NNodes l) by congruence. rewrite (nth_upd_same _ _ _ _ Hj).
          rewrite (sim_nodes _ _ _ Hs H). congruence.
        * rewrite nth_upd_other by assumption. assumption.
      + eapply Forall_impl; [|eassumption]. intros i (v & b & Hi). exists v, b.
        destruct (Nat.eq_dec i j) as [->|Hne].
        * assert (n = NInt v b) by congruence. rewrite (nth_upd_same _ _ _ _ Hj).
          rewrite (sim_int _ _ _ _ Hs H). congruence.
        * rewrite nth_upd_other by assumption. assumption.
    - intros (l & Hl & Hf). exists l. split.
      + destruct (Nat.eq_dec h j) as [->|Hne].
        * assert (n = NNodes l) by congruence. rewrite (nth_upd_same _ _ _ _ Hj).
          rewrite (sim_nodes _ _ _ Hs H). congruence.
        * rewrite nth_upd_other by assumption. assumption.
      + eapply Forall_impl; [|eassumption]. intros i (m & Hm & Hk).
        destruct (Nat.eq_dec i j) as [->|Hne].
        * exists n'. split; [eapply nth_upd_same; eassumption|].
          assert (m = n) by congruence. subst m. pose proof (sim_hkind _ _ KIdent Hs) as Hh. cbn in Hh. congruence.
        * exists m. rewrite nth_upd_other by assumption. auto.
  Qed.
  Lemma node_ok_upd sg j n n' m : nth_error sg j = Some n -> sim n n' -> node_ok sg m -> node_ok (upd sg j n') m.
  Proof. intros Hj Hs [H1 H2]. split; [assumption|]. intros. eapply kind_at_upd; eauto. Qed.

  Lemma wf_upd_avoid sg P j n n' h : nth_error sg j = Some n -> sim n n' ->
    wf sg (fun i => P i /\ i <> j) h -> wf (upd sg j n') (fun i => P i /\ i <> j) h.
  Proof.
    intros Hj Hs. induction 1 as [h m Hm HP Hok Hk IH].
    econstructor; eauto using node_ok_upd.
    rewrite nth_upd_other by apply HP. assumption.
  Qed.

  (** Re-linking a node to children that do not lead back to it. *)
  Lemma wf_upd sg P j n n' h : nth_error sg j = Some n -> sim n n' -> node_ok sg n' ->
    (forall x c, In (x, c) (kids n') -> wf sg (fun i => P i /\ i <> j) c) ->
    wf sg P h -> wf (upd sg j n') P h.
  Proof.
    intros Hj Hs Hok' Hk'. induction 1 as [h m Hm HP Hok Hk IH].
    destruct (Nat.eq_dec h j) as [->|Hne].
    - econstructor; [eapply nth_upd_same; eassumption|assumption|eapply (node_ok_upd _ _ _ _ _ Hj Hs); assumption|].
      intros x c Hc. eapply wf_mono; [|apply (wf_upd_avoid sg P j n n' c Hj Hs); apply (Hk' _ _ Hc)]. cbn; tauto.
    - econstructor; [rewrite nth_upd_other by assumption; eassumption|assumption|eapply (node_ok_upd _ _ _ _ _ Hj Hs); assumption|].
      assumption.
  Qed.
  Lemma wfk_upd sg P j n n' k h : nth_error sg j = Some n -> sim n n' -> node_ok sg n' ->
    (forall x c, In (x, c) (kids n') -> wf sg (fun i => P i /\ i <> j) c) ->
    wfk sg P k h -> wfk (upd sg j n') P k h.
  Proof. intros ? ? ? ? [? ?]. split; [eapply wf_upd; eauto | eapply kind_at_upd; eauto]. Qed.

  (** The updated node itself becomes well-formed. *)
  Lemma wf_upd_root sg (P : handle -> Prop) j n n' : nth_error sg j = Some n -> sim n n' -> node_ok sg n' -> P j ->
    (forall x c, In (x, c) (kids n') -> wf sg (fun i => P i /\ i <> j) c) ->
    wf (upd sg j n') P j.
  Proof.
    intros Hj Hs Hok' HP Hk'.
    econstructor; [eapply nth_upd_same; eassumption|assumption|eapply (node_ok_upd _ _ _ _ _ Hj Hs); assumption|].
    intros x c Hc. eapply wf_mono; [|apply (wf_upd_avoid sg P j n n' c Hj Hs); apply (Hk' _ _ Hc)]. cbn; tauto.
  Qed.

  (** Updates that keep the references. *)
  Lemma wf_upd_shape sg P j n n' h : nth_error sg j = Some n -> sim n n' -> kids n' = kids n ->
    (local_ok n -> local_ok n') -> wf sg P h -> wf (upd sg j n') P h.
  Proof.
    intros Hj Hs Hkid Hloc. induction 1 as [h m Hm HP Hok Hk IH].
    destruct (Nat.eq_dec h j) as [->|Hne].
    - assert (m = n) by congruence. subst m.
      econstructor; [eapply nth_upd_same; eassumption|assumption| |].
      + apply (node_ok_upd _ _ _ _ _ Hj Hs). destruct Hok as [H1 H2]. split; [auto|].
        rewrite Hkid. assumption.
      + rewrite Hkid. assumption.
    - econstructor; [rewrite nth_upd_other by assumption; eassumption|assumption|eapply (node_ok_upd _ _ _ _ _ Hj Hs); assumption|].
      assumption.
  Qed.
  Lemma wfk_upd_shape sg P j n n' k h : nth_error sg j = Some n -> sim n n' -> kids n' = kids n ->
    (local_ok n -> local_ok n') -> wfk sg P k h -> wfk (upd sg j n') P k h.
  Proof. intros ? ? ? ? [? ?]. split; [eapply wf_upd_shape; eauto | eapply kind_at_upd; eauto]. Qed.

  Lemma ext_upd sg0 sg j n' : ext sg0 sg -> length sg0 <= j -> ext sg0 (upd sg j n').
  Proof.
    intros He Hj i n Hi. rewrite nth_upd_other; [auto|].
    assert (i < length sg0) by (apply nth_error_Some; congruence). lia.
  Qed.

  (** Interning. *)
  Lemma nth_app_last (sg : store) n : nth_error (sg ++ [n]) (length sg) = Some n.
  Proof. rewrite nth_error_app2 by lia. rewrite Nat.sub_diag. reflexivity. Qed.

  Lemma wf_intern sg (P : handle -> Prop) n : P (length sg) -> node_ok sg n ->
    (forall x c, In (x, c) (kids n) -> wf sg P c) -> wf (sg ++ [n]) P (length sg).
  Proof.
    intros HP Hok Hk. econstructor; eauto using nth_app_last.
    - eapply node_ok_ext; eauto using ext_app.
    - intros. eapply wf_ext; eauto using ext_app.
  Qed.

  Lemma resolve_kind sg k h : kind_at sg (KK k) h -> exists n, resolve sg k h = Some n /\ nth_error sg h = Some n /\ hkind k n = true.
  Proof. intros (n & Hn & Hk). exists n. unfold resolve. rewrite Hn, Hk. auto. Qed.
End Wf.
