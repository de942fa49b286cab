(** Parsing extends the store; nodes that may still be modified are hidden in the world.
    Proof infrastructure of the round trip. *)
From Verif Require Import Parser Utf8 Show Den Emit Grammar Lex Step Number.

(** ** Extension *)
Definition ext {A} (a b : list A) : Prop := exists m, b = a ++ m.
Lemma ext_refl {A} (a : list A) : ext a a.
Proof. exists []. rewrite app_nil_r. reflexivity. Qed.
Lemma ext_app {A} (a m : list A) : ext a (a ++ m).
Proof. exists m. reflexivity. Qed.
Lemma ext_trans {A} (a b c : list A) : ext a b -> ext b c -> ext a c.
Proof. intros (m & ->) (n & ->). exists (m ++ n). rewrite app_assoc. reflexivity. Qed.
Lemma ext_len {A} (a b : list A) : ext a b -> length a <= length b.
Proof. intros (m & ->). rewrite app_length. lia. Qed.
Lemma ext_nth {A} (a b : list A) i x : ext a b -> nth_error a i = Some x -> nth_error b i = Some x.
Proof. intros (m & ->) H. rewrite nth_error_app1; [exact H|]. apply nth_error_Some. congruence. Qed.
Lemma ext_sub (w w' : world) : ext w w' -> sub w w'.
Proof. intros (m & ->). apply sub_app. Qed.

Fixpoint lset {A} (l : list A) (i : nat) (x : A) : list A :=
  match l, i with [], _ => [] | _ :: l, O => x :: l | y :: l, S i => y :: lset l i x end.
Lemma lset_len {A} (l : list A) i x : length (lset l i x) = length l.
Proof. revert i. induction l as [|y l IH]; intros [|i]; cbn; auto. Qed.
Lemma lset_same {A} (l : list A) i x : i < length l -> nth_error (lset l i x) i = Some x.
Proof. revert i. induction l as [|y l IH]; intros [|i] H; cbn in *; try lia; auto. apply IH. lia. Qed.
Lemma lset_other {A} (l : list A) i j x : i <> j -> nth_error (lset l i x) j = nth_error l j.
Proof. revert i j. induction l as [|y l IH]; intros [|i] [|j] H; cbn in *; try lia; auto. Qed.
Lemma lset_ext {A} (a l : list A) i x : ext a l -> length a <= i -> ext a (lset l i x).
Proof.
  intros (m & ->). revert i. induction a as [|y a IH]; intros i H; cbn in *.
  - exists (lset m i x). reflexivity.
  - destruct i as [|i]; [lia|]. destruct (IH i ltac:(lia)) as (m' & Hm). exists m'. cbn. rewrite Hm. reflexivity.
Qed.
Lemma upd_lset sg h n : upd sg h n = lset sg h n.
Proof. revert h. induction sg as [|m sg IH]; intros [|h]; cbn; auto. rewrite IH. reflexivity. Qed.
Lemma lset_id {A} (l : list A) i x : nth_error l i = Some x -> lset l i x = l.
Proof. revert i. induction l as [|y l IH]; intros [|i] H; cbn in *; try congruence. rewrite IH by exact H. reflexivity. Qed.

(** ** Hidden nodes and revealing *)
Definition hid (w : world) (h : handle) : Prop := nth_error w h = Some None.
Lemma hid_ext w w' h : ext w w' -> hid w h -> hid w' h.
Proof. apply ext_nth. Qed.
Lemma hid_len w h : hid w h -> h < length w.
Proof. intros H. apply nth_error_Some. rewrite H. discriminate. Qed.
Definition reveal (w : world) (h : handle) (n : node) : world := lset w h (Some n).
Lemma reveal_get w h n : hid w h -> wget (reveal w h n) h = Some n.
Proof. intros H. unfold wget, reveal. rewrite lset_same; [reflexivity|]. apply hid_len. exact H. Qed.
Lemma reveal_sub w h n : hid w h -> sub w (reveal w h n).
Proof.
  intros H j m. unfold wget, reveal. destruct (Nat.eq_dec h j) as [<-|Hne]; [unfold hid in H; rewrite H; discriminate|].
  rewrite lset_other by exact Hne. auto.
Qed.
Lemma reveal_hid w h n j : j <> h -> hid w j -> hid (reveal w h n) j.
Proof. unfold hid, reveal. intros H. rewrite lset_other; auto. Qed.
Lemma reveal_cnt w h n : hid w h -> cnt (reveal w h n) = S (cnt w).
Proof.
  unfold hid, reveal. revert h. induction w as [|o w IH]; intros [|h] H; cbn in *; try discriminate.
  - injection H as ->. reflexivity.
  - destruct o; cbn; rewrite (IH h H); reflexivity.
Qed.
Lemma reveal_compat w sg h n : compat w sg -> nth_error sg h = Some n -> compat (reveal w h n) sg.
Proof.
  intros [Hl H] Hn. split; [unfold reveal; rewrite lset_len; exact Hl|]. intros j m. unfold wget, reveal.
  destruct (Nat.eq_dec h j) as [<-|Hne]; [|rewrite lset_other by exact Hne; apply H].
  rewrite lset_same by (rewrite Hl; apply nth_error_Some; congruence). congruence.
Qed.
Lemma compat_upd w sg h n : compat w sg -> hid w h -> compat w (lset sg h n).
Proof.
  intros [Hl H] Hh. split; [rewrite lset_len; exact Hl|]. intros j m Hj.
  destruct (Nat.eq_dec h j) as [<-|Hne]; [unfold wget, hid in *; rewrite Hh in Hj; discriminate|].
  rewrite lset_other by exact Hne. auto.
Qed.
Lemma compat_app w sg a b : compat w sg -> compat a b -> compat (w ++ a) (sg ++ b).
Proof.
  intros [Hl H] [Hl' H']. split; [rewrite !app_length; lia|]. intros j m. unfold wget.
  destruct (Nat.lt_ge_cases j (length w)) as [Hj|Hj].
  - rewrite !nth_error_app1 by lia. apply H.
  - rewrite !nth_error_app2 by lia. rewrite <- Hl. apply H'.
Qed.
Lemma compat_hidden n : compat [None] [n].
Proof. split; [reflexivity|]. intros [|[|j]]; discriminate. Qed.
Lemma compat_known n : compat [Some n] [n].
Proof. split; [reflexivity|]. intros [|[|j]] m; cbn; try discriminate. auto. Qed.

Section Pend.
  Variable E : env.
  Notation DT w := (dty E (cnt w) w).
  Notation DS w := (dstr E (cnt w) w).
  Notation DF w := (dfn E (cnt w) w).

  Lemma DT_sub w w' h t : sub w w' -> DT w h t -> DT w' h t.
  Proof. intros H. apply dty_mono; [apply sub_cnt|]; exact H. Qed.
  Lemma DS_sub w w' k h x : sub w w' -> DS w k h x -> DS w' k h x.
  Proof. intros H. apply dstr_mono; [apply sub_cnt|]; exact H. Qed.
  Lemma DF_sub w w' h c a s : sub w w' -> DF w h c a s -> DF w' h c a s.
  Proof. intros H. apply dfn_mono; [apply sub_cnt|]; exact H. Qed.

  Definition dn w (n : node) (t : ty) : Prop := dnode E (DT w) (DS w) (wget w) n t.
  Definition dsh w (n : node) (x : str) : Prop := dshow E (DT w) (DS w) (DF w) (wget w) n x.
  Lemma dn_sub w w' n t : sub w w' -> dn w n t -> dn w' n t.
  Proof.
    intros H. apply dnode_mono; [intros h0 t0; apply DT_sub; exact H|intros k0 h0 x0; apply DS_sub; exact H|exact H].
  Qed.
  Lemma dsh_sub w w' n x : sub w w' -> dsh w n x -> dsh w' n x.
  Proof.
    intros H. apply dshow_mono; [intros h0 t0; apply DT_sub; exact H|intros k0 h0 x0; apply DS_sub; exact H|
      intros h0 c0 a0 s0; apply DF_sub; exact H|exact H].
  Qed.

  (** A world with one more node. *)
  Definition one_more (w w' : world) (h : handle) (n : node) : Prop :=
    sub w w' /\ cnt w' = S (cnt w) /\ wget w' h = Some n.
  Lemma reveal_more w h n : hid w h -> one_more w (reveal w h n) h n.
  Proof. intros H. split; [apply reveal_sub; exact H|]. split; [apply reveal_cnt; exact H|apply reveal_get; exact H]. Qed.
  Lemma app_more w n : one_more w (w ++ [Some n]) (length w) n.
  Proof.
    split; [apply sub_app|]. split; [rewrite cnt_app; cbn; lia|].
    unfold wget. rewrite nth_error_app2, Nat.sub_diag by lia. reflexivity.
  Qed.
  Lemma more_DT w w' h n t : one_more w w' h n -> dn w n t -> DT w' h t.
  Proof.
    intros (Hs & Hc & Hg) H. rewrite Hc. exists n. split; [exact Hg|].
    eapply dnode_mono; [| | |exact H]; [intros h0 t0; apply dty_mono; auto|intros k0 h0 x0; apply dstr_mono; auto|exact Hs].
  Qed.
  Lemma more_DS w w' h n k x : one_more w w' h n -> hkind k n = true -> dsh w n x -> DS w' k h x.
  Proof.
    intros (Hs & Hc & Hg) Hk H. rewrite Hc. exists n. split; [exact Hg|]. split; [exact Hk|].
    eapply dshow_mono; [| | | |exact H]; [intros h0 t0; apply dty_mono; auto|intros k0 h0 x0; apply dstr_mono; auto|
      intros h0 c0 a0 s0; apply dfn_mono; auto|exact Hs].
  Qed.
  Lemma more_DF w w' h n c a s : one_more w w' h n -> dfun E (DT w) (DS w) n c a s -> DF w' h c a s.
  Proof.
    intros (Hs & Hc & Hg) H. rewrite Hc. exists n. split; [exact Hg|].
    eapply dfun_mono; [| |exact H]; [intros h0 t0; apply dty_mono; auto|intros k0 h0 x0; apply dstr_mono; auto].
  Qed.
  Lemma DT_show w h t : DT w h t -> DS w KAny h (show E t).
  Proof.
    destruct (cnt w) as [|n]; [contradiction|]. intros (nd & Hg & Hd). exists nd. split; [exact Hg|]. split; [reflexivity|].
    destruct nd; try contradiction; cbn [dshow]; exists t; auto.
  Qed.
  Lemma DS_any w k h x : DS w k h x -> DS w KAny h x.
  Proof. apply dstr_any. Qed.
  Lemma DS_get w k h x : DS w k h x -> exists n, wget w h = Some n /\ hkind k n = true.
  Proof. destruct (cnt w); [contradiction|]. intros (nd & H1 & H2 & _). eauto. Qed.

  (** ** Pending types *)
  Definition pend1 n0 w (sg : store) h t : Prop :=
    n0 <= h /\ hid w h /\ exists nd, nth_error sg h = Some nd /\ dn w nd t.
  Definition pend n0 w (sg : store) h t : Prop :=
    match t with
    | TPtr q a c' pt =>
      n0 <= h /\ hid w h /\ exists c p, nth_error sg h = Some (NPtr q (Some a) c p) /\ p <> h /\
        opt_rel (fun h name => DS w KQual h (qualified name)) c c' /\ pend1 n0 w sg p pt
    | _ => pend1 n0 w sg h t
    end.
  Lemma pend_hid n0 w sg h t : pend n0 w sg h t -> n0 <= h /\ hid w h.
  Proof. destruct t; cbn; unfold pend1; tauto. Qed.
  Lemma pend_node n0 w sg h t : pend n0 w sg h t -> exists nd, nth_error sg h = Some nd /\ is_type nd = true.
  Proof.
    assert (H1 : forall t, pend1 n0 w sg h t -> exists nd, nth_error sg h = Some nd /\ is_type nd = true).
    { intros t' (_ & _ & nd & Hn & Hd). exists nd. split; [exact Hn|]. destruct nd; try contradiction; reflexivity. }
    destruct t; try apply H1. cbn. intros (_ & _ & c & p & H & _). eexists. split; [exact H|reflexivity].
  Qed.
  Lemma pend1_le n0 n1 w sg h t : n1 <= n0 -> pend1 n0 w sg h t -> pend1 n1 w sg h t.
  Proof. intros H (H1 & H2). split; [lia|exact H2]. Qed.
  Lemma pend_le n0 n1 w sg h t : n1 <= n0 -> pend n0 w sg h t -> pend n1 w sg h t.
  Proof.
    intros H. destruct t; cbn; try (apply pend1_le; exact H).
    intros (H1 & H2 & c & p & H3 & H4 & H5 & H6). split; [lia|]. split; [exact H2|]. exists c, p. split; [exact H3|]. split; [exact H4|]. split; [exact H5|]. eapply pend1_le; eauto.
  Qed.
  Lemma pend1_ext n0 w sg w' sg' h t : ext w w' -> ext sg sg' -> pend1 n0 w sg h t -> pend1 n0 w' sg' h t.
  Proof.
    intros Hw Hs (H1 & H2 & nd & H3 & H4). split; [exact H1|]. split; [eapply hid_ext; eauto|]. exists nd. split; [eapply ext_nth; eauto|].
    eapply dn_sub; [|exact H4]. apply ext_sub. exact Hw.
  Qed.
  Lemma pend_ext n0 w sg w' sg' h t : ext w w' -> ext sg sg' -> pend n0 w sg h t -> pend n0 w' sg' h t.
  Proof.
    intros Hw Hs. destruct t; cbn; try (apply pend1_ext; assumption).
    intros (H1 & H2 & c & p & H3 & H4 & H5 & H6). split; [exact H1|]. split; [eapply hid_ext; eauto|]. exists c, p.
    split; [eapply ext_nth; eauto|]. split; [exact H4|]. split; [|eapply pend1_ext; eauto].
    eapply opt_rel_mono; [|exact H5]. cbv beta. intros x y. apply DS_sub. apply ext_sub. exact Hw.
  Qed.
  (** Settling a pending type: its nodes become known. *)
  Lemma settle1 n0 w sg h t : compat w sg -> pend1 n0 w sg h t ->
    exists n, nth_error sg h = Some n /\ hid w h /\ compat (reveal w h n) sg /\ DT (reveal w h n) h t.
  Proof.
    intros Hc (_ & Hh & nd & Hn & Hd). exists nd. split; [exact Hn|]. split; [exact Hh|]. split; [apply reveal_compat; assumption|].
    eapply more_DT; [apply reveal_more; exact Hh|exact Hd].
  Qed.
  (** From pending with pending pointee to pending. *)
  Lemma half_settle n0 w0 w sg h t : length w0 <= n0 -> ext w0 w -> compat w sg -> pend n0 w sg h t ->
    exists w', ext w0 w' /\ sub w w' /\ compat w' sg /\ pend1 n0 w' sg h t.
  Proof.
    intros H0 Hx Hc Hp. destruct t; try (exists w; repeat split; [exact Hx|apply sub_refl|apply Hc|apply Hc|apply Hp|apply Hp|apply Hp]).
    destruct Hp as (H1 & H2 & c & p & H3 & H4 & H5 & H6). destruct (settle1 n0 w sg p t Hc H6) as (n & Hn & Hh & Hc' & Hd).
    pose proof H6 as (H7 & _).
    exists (reveal w p n). split; [apply lset_ext; [exact Hx|lia]|]. split; [apply reveal_sub; exact Hh|]. split; [exact Hc'|].
    split; [exact H1|]. split; [apply reveal_hid; auto|]. eexists. split; [exact H3|]. exists a, cls, t. repeat split; auto.
    eapply opt_rel_mono; [|exact H5]. cbv beta. intros x y. apply DS_sub. apply reveal_sub. exact Hh.
  Qed.
  Lemma settle n0 w0 w sg h t : length w0 <= n0 -> ext w0 w -> compat w sg -> pend n0 w sg h t ->
    exists w', ext w0 w' /\ sub w w' /\ compat w' sg /\ DT w' h t.
  Proof.
    intros H0 Hx Hc Hp. destruct (half_settle n0 w0 w sg h t H0 Hx Hc Hp) as (w1 & Hx1 & Hs1 & Hc1 & Hp1).
    destruct (settle1 n0 w1 sg h t Hc1 Hp1) as (n & Hn & Hh & Hc' & Hd). pose proof Hp1 as (H7 & _).
    exists (reveal w1 h n). split; [apply lset_ext; [exact Hx1|lia]|]. split; [|auto].
    eapply sub_trans; [exact Hs1|apply reveal_sub; exact Hh].
  Qed.
  (** Changing the qualifiers of a pending type. *)
  Lemma dn_quals f w nd t : dn w nd t -> dn w (node_quals f nd) (map_quals f t).
  Proof.
    unfold dn. destruct nd; cbn; try contradiction.
    - intros ->. reflexivity.
    - intros (Hc & Hd). split; [exact Hc|]. destruct t; cbn in *; try contradiction.
      destruct Hd as (H1 & H2 & H3 & H4 & H5 & H6 & H7). subst. cbn. repeat split; auto.
    - intros (a' & c' & pt & -> & -> & Hc & Hp). exists a', c', pt. auto.
    - intros (name & -> & Hn). exists name. auto.
    - intros (ds & et & -> & Hd). exists ds, et. auto.
    - intros (x & -> & Hx). exists x. auto.
  Qed.
  Lemma pend1_upd f n0 w sg h t nd : nth_error sg h = Some nd -> pend1 n0 w sg h t ->
    pend1 n0 w (lset sg h (node_quals f nd)) h (map_quals f t).
  Proof.
    intros Hnd (H1 & H2 & nd' & H3 & H4). assert (nd' = nd) by congruence. subst nd'. split; [exact H1|]. split; [exact H2|].
    exists (node_quals f nd). split; [apply lset_same; apply nth_error_Some; congruence|]. apply dn_quals. exact H4.
  Qed.
  Lemma pend_upd f n0 w sg h t nd : nth_error sg h = Some nd -> pend n0 w sg h t ->
    pend n0 w (lset sg h (node_quals f nd)) h (map_quals f t).
  Proof.
    intros Hnd. destruct t; try (apply pend1_upd; exact Hnd).
    intros (H1 & H2 & c & p & H3 & H4 & H5 & H6 & H7 & ndp & H8 & H9). assert (nd = NPtr q (Some a) c p) by congruence. subst nd.
    split; [exact H1|]. split; [exact H2|]. exists c, p. split; [apply lset_same; apply nth_error_Some; congruence|]. repeat split; auto.
    exists ndp. split; [rewrite lset_other by auto; exact H8|exact H9].
  Qed.
  Lemma add_none t : add_quals Q_None t = t.
  Proof. destruct t; cbn; unfold Q_None; rewrite N.lor_0_r; reflexivity. Qed.
End Pend.
