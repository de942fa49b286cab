(** The printer side of the congruence: two environments whose flags amount to the same view
    print the same text.  Proof infrastructure. *)
From Verif Require Import Parser Lex Rel.

(** What the printer can see of the flags. *)
Record same_view (E E' : env) : Prop := {
  sv_alnum : forall c, e_alnum E c = e_alnum E' c;
  sv_name : name_only E = name_only E';
  sv_ret : no_return_type E = no_return_type E';
  sv_ms : no_ms_keywords E = no_ms_keywords E';
  sv_under : no_ms_keywords E = false -> no_leading_underscores E = no_leading_underscores E';
  sv_cc : no_ms_keywords E = false -> no_calling_convention E = no_calling_convention E';
  sv_acc : name_only E = false -> no_access_specifier E = no_access_specifier E';
  sv_mem : name_only E = false -> no_member_type E = no_member_type E';
  sv_tag : name_only E = false -> no_tag_specifier E = no_tag_specifier E';
  sv_var : name_only E = false -> no_variable_type E = no_variable_type E';
  sv_this : name_only E = false -> no_this_type E = no_this_type E'
}.

Section RelOut.
  Variable bad_e : error -> Prop.
  Variable bad_f : Prop.
  Notation relw := (relw bad_e bad_f).
  Variables E E' : env.
  Hypothesis V : same_view E E'.
  Hypothesis Hstr : forall t, relw (w_str E t) (w_str E' t).

  Lemma relw_if_eq (c c' : bool) m m' : c = c' -> (c = true -> relw m m') -> relw (w_if c m) (w_if c' m').
  Proof. intros ->. apply relw_if. Qed.
  Lemma relw_ext w w' : (forall b, w b = w' b) -> forall v, relw w' v -> relw w v.
  Proof. intros H v Hr b b' Hb. rewrite H. apply Hr. assumption. Qed.

  Lemma relw_space : relw (space_if_necessary E) (space_if_necessary E').
  Proof.
    intros b b' Hb. unfold space_if_necessary.
    assert (Heq : last_char b = last_char b') by (unfold last_char; rewrite Hb; reflexivity). rewrite Heq.
    destruct (last_char b') as [c|]; [|apply relw_ret; assumption].
    replace (is_alphanumeric E' c) with (is_alphanumeric E c) by (unfold is_alphanumeric; rewrite (sv_alnum _ _ V); reflexivity).
    destruct (_ || _); [apply Hstr|apply relw_ret]; assumption.
  Qed.

  Lemma relw_restrict : relw (single_restrict E) (single_restrict E').
  Proof.
    unfold single_restrict. rewrite <- (sv_ms _ _ V). destruct (no_ms_keywords E) eqn:Hms; [apply relw_ret|].
    rewrite <- (sv_under _ _ V Hms). destruct (no_leading_underscores E); apply Hstr.
  Qed.
  Lemma relw_if_present p m m' sb k k' : relw m m' -> (forall b, relw (k b) (k' b)) ->
    relw (if_present E p m sb k) (if_present E' p m' sb k').
  Proof.
    intros Hm Hk. unfold if_present. destruct p; [|apply Hk].
    apply relw_seq; [apply relw_if; intros; apply Hstr|]. apply relw_seq; [assumption|apply Hk].
  Qed.
  Lemma relw_quals q sb sa : relw (out_quals E q sb sa) (out_quals E' q sb sa).
  Proof.
    unfold out_quals. destruct (q =? Q_None)%N; [apply relw_ret|]. intros b b' Hb.
    refine (relw_seq bad_e bad_f _ _ _ _ _ _ b b' Hb).
    - repeat (apply relw_if_present; [first [apply Hstr|apply relw_restrict]|intros ?]). apply relw_ret.
    - intros c c' Hc. rewrite Hb, Hc. apply relw_if; [intros; apply Hstr|assumption].
  Qed.
  Lemma relw_cc c : no_ms_keywords E = false -> relw (out_cc E c) (out_cc E' c).
  Proof.
    intros Hms. unfold out_cc. apply relw_seq; [apply relw_space|]. rewrite <- (sv_under _ _ V Hms). apply Hstr.
  Qed.

  Section Node.
    Variable sg : store.
    Variables rec rec' : omode -> kind -> handle -> W.
    Hypothesis Hrec : forall m k h, relw (rec m k h) (rec' m k h).

    Ltac rw1 :=
      match goal with
      | |- Rel.relw _ _ w_ret w_ret => apply relw_ret
      | |- Rel.relw _ _ w_panic w_panic => apply relw_panic
      | |- Rel.relw _ _ (w_str E _) (w_str E' _) => apply Hstr
      | |- Rel.relw _ _ (put E _) (put E' _) => apply Hstr
      | |- Rel.relw _ _ (rec _ _ _) (rec' _ _ _) => apply Hrec
      | |- Rel.relw _ _ (space_if_necessary E) (space_if_necessary E') => apply relw_space
      | |- Rel.relw _ _ (out_quals E _ _ _) (out_quals E' _ _ _) => apply relw_quals
      | |- Rel.relw _ _ (w_seq _ _) (w_seq _ _) => apply relw_seq
      | |- Rel.relw _ _ (w_if ?c _) (w_if ?c _) => apply relw_if; intros ?
      | |- Rel.relw _ _ (if ?c then _ else _) (if ?c then _ else _) => apply relw_ite; intros ?
      | |- Rel.relw _ _ (w_opt ?o _) (w_opt ?o _) => apply relw_opt; intros ?
      | |- Rel.relw _ _ (match ?x with _ => _ end) (match ?x with _ => _ end) => destruct x
      end.
    Ltac rw := repeat rw1.

    Lemma flag_and (a b n : bool) : (n = false -> a = b) -> negb a && negb n = negb b && negb n.
    Proof. destruct n; cbn; [rewrite !andb_false_r; reflexivity|intros ->; reflexivity]. Qed.
    Ltac flags :=
      rewrite <- ?(sv_name _ _ V), <- ?(sv_ret _ _ V), <- ?(sv_ms _ _ V),
        <- ?(flag_and _ _ _ (sv_acc _ _ V)), <- ?(flag_and _ _ _ (sv_mem _ _ V)), <- ?(flag_and _ _ _ (sv_tag _ _ V)),
        <- ?(flag_and _ _ _ (sv_var _ _ V)), <- ?(flag_and _ _ _ (sv_this _ _ V)).

    Lemma cc_guard x : x && negb (no_calling_convention E) && negb (no_ms_keywords E) =
      x && negb (no_calling_convention E') && negb (no_ms_keywords E).
    Proof.
      destruct (no_ms_keywords E) eqn:Hms; [rewrite !andb_false_r; reflexivity|]. rewrite (sv_cc _ _ V Hms). reflexivity.
    Qed.
    Lemma cc_guard' : negb (no_calling_convention E) && negb (no_ms_keywords E) =
      negb (no_calling_convention E') && negb (no_ms_keywords E).
    Proof. exact (cc_guard true). Qed.

    Lemma relw_fsig_pre f p : relw (fsig_pre E rec f p) (fsig_pre E' rec' f p).
    Proof.
      unfold fsig_pre. flags. apply relw_seq; [rw|]. apply relw_seq; [rw|]. apply relw_seq; [rw|].
      apply relw_if_eq; [f_equal; apply cc_guard|]. intros Hc. apply relw_opt. intros c. apply relw_cc.
      apply andb_prop in Hc. destruct Hc as [Hc _]. apply andb_prop in Hc. destruct Hc as [_ Hc].
      apply negb_true_iff in Hc. exact Hc.
    Qed.
    Lemma relw_variadic :
      relw (fun b => match last_char b with Some c => w_if (negb (c =? ch "(")%N) (put E (L ", ")) b | None => w_ret b end)
           (fun b => match last_char b with Some c => w_if (negb (c =? ch "(")%N) (put E' (L ", ")) b | None => w_ret b end).
    Proof.
      intros b b' Hb. assert (Heq : last_char b = last_char b') by (unfold last_char; rewrite Hb; reflexivity).
      rewrite Heq. destruct (last_char b'); [|apply relw_ret; assumption]. apply relw_if; [intros; apply Hstr|assumption].
    Qed.
    Lemma relw_fsig_post f p : relw (fsig_post E rec f p) (fsig_post E' rec' f p).
    Proof.
      unfold fsig_post. flags. apply relw_seq.
      { apply relw_if; intros _. apply relw_seq; [rw|]. apply relw_seq; [rw|].
        apply relw_seq; [|rw]. apply relw_if; intros _. apply relw_seq; [apply relw_variadic|rw]. }
      apply relw_seq; [|rw]. apply relw_if; intros _. apply relw_seq; [rw|]. apply relw_seq; [rw|].
      apply relw_if; intros Hms. apply negb_true_iff in Hms. rewrite <- (sv_under _ _ V Hms). rw.
    Qed.
    Lemma relw_thunk_pre f p : relw (thunk_pre E rec f p) (thunk_pre E' rec' f p).
    Proof. unfold thunk_pre. flags. apply relw_seq; [rw|apply relw_fsig_pre]. Qed.
    Lemma relw_thunk_post f ta p : relw (thunk_post E rec f ta p) (thunk_post E' rec' f ta p).
    Proof. unfold thunk_post. apply relw_seq; [rw|apply relw_fsig_post]. Qed.
    Lemma relw_sig_pre n p : relw (sig_pre E rec n p) (sig_pre E' rec' n p).
    Proof. destruct n; cbn [sig_pre]; first [apply relw_panic|apply relw_fsig_pre|apply relw_thunk_pre]. Qed.
    Lemma relw_sig_post n p : relw (sig_post E rec n p) (sig_post E' rec' n p).
    Proof. destruct n; cbn [sig_post]; first [apply relw_panic|apply relw_fsig_post|apply relw_thunk_post]. Qed.
    Lemma relw_ptr_pre q a cls p : relw (ptr_pre E sg rec q a cls p) (ptr_pre E' sg rec' q a cls p).
    Proof.
      unfold ptr_pre. destruct (resolve sg KType p) as [n|]; [|apply relw_panic]. flags.
      apply relw_seq; [apply relw_ite; intros _; [apply relw_sig_pre|apply Hrec]|].
      apply relw_seq; [apply relw_space|]. apply relw_seq.
      { apply relw_if; intros Hg. apply andb_prop in Hg. destruct Hg as [Hms _]. apply negb_true_iff in Hms.
        rewrite <- (sv_under _ _ V Hms). rw. }
      apply relw_seq; [|rw]. apply relw_ite; intros _; [rw|]. apply relw_ite; intros _; [|rw].
      apply relw_seq; [rw|]. apply relw_if_eq; [apply cc_guard'|]. intros Hg. apply andb_prop in Hg.
      destruct Hg as [_ Hms]. apply negb_true_iff in Hms. apply relw_opt. intros c.
      apply relw_seq; [apply relw_cc; assumption|rw].
    Qed.
    Lemma relw_ptr_post p : relw (ptr_post E sg rec p) (ptr_post E' sg rec' p).
    Proof.
      unfold ptr_post. destruct (resolve sg KType p) as [n|]; [|apply relw_panic]. apply relw_seq; [rw|].
      apply relw_ite; intros _; [apply relw_sig_post|apply Hrec].
    Qed.
    Lemma relw_one_dim h : relw (one_dim E sg h) (one_dim E' sg h).
    Proof. unfold one_dim, int_out. rw. Qed.
    Lemma relw_rest_dims l : relw (rest_dims E sg l) (rest_dims E' sg l).
    Proof.
      induction l; cbn [rest_dims]; [rw|]. apply relw_seq; [rw|]. apply relw_seq; [apply relw_one_dim|assumption].
    Qed.
    Lemma relw_dims d : relw (out_dims E sg d) (out_dims E' sg d).
    Proof.
      unfold out_dims. destruct (resolve sg KNodes d) as [n|]; [|apply relw_panic]. destruct n; try apply relw_panic.
      destruct l; [rw|]. apply relw_seq; [apply relw_one_dim|apply relw_rest_dims].
    Qed.
    Lemma relw_tp tp : relw (out_tp E rec tp) (out_tp E' rec' tp).
    Proof. unfold out_tp. rw. Qed.
    Lemma relw_nodes sep l : relw (out_nodes E rec sep l) (out_nodes E' rec' sep l).
    Proof.
      assert (Hr : forall l, relw (rest_nodes E rec sep l) (rest_nodes E' rec' sep l)).
      { clear l. induction l; cbn [rest_nodes]; rw. assumption. }
      destruct l; cbn [out_nodes]; [rw|]. apply relw_seq; [rw|apply Hr].
    Qed.
    Lemma relw_pre n : relw (out_pre E sg rec n) (out_pre E' sg rec' n).
    Proof.
      destruct n; cbn [out_pre]; try apply relw_panic; flags;
        first [apply relw_fsig_pre|apply relw_thunk_pre|apply relw_ptr_pre|rw].
    Qed.
    Lemma relw_post n : relw (out_post E sg rec n) (out_post E' sg rec' n).
    Proof.
      destruct n; cbn [out_post]; try apply relw_panic;
        first [apply relw_fsig_post|apply relw_thunk_post|apply relw_ptr_post|idtac]; try solve [rw].
      apply relw_seq; [rw|]. apply relw_seq; [apply relw_dims|rw].
    Qed.
    Lemma relw_var name sc ty : relw (var_out E rec name sc ty) (var_out E' rec' name sc ty).
    Proof.
      unfold var_out. flags.
      destruct (match sc with Some PrivateStatic => _ | _ => _ end) as [acc st].
      apply relw_seq; [rw|]. apply relw_seq; [rw|].
      destruct name as [[h|]|]; [| |rw]; cbv zeta; rw.
    Qed.
    Lemma relw_tpr sym offs a : relw (tpr_out E rec sym offs a) (tpr_out E' rec' sym offs a).
    Proof.
      unfold tpr_out. apply relw_seq; [rw|]. apply relw_seq; [rw|]. destruct offs as [|z zs]; [rw|].
      apply relw_seq; [rw|]. induction zs; cbn [fold_right]; [rw|]. apply relw_seq; [rw|assumption].
    Qed.
    Lemma relw_full n : relw (out_full E sg rec n) (out_full E' sg rec' n).
    Proof.
      destruct n; cbn [out_full]; flags;
        try (apply relw_seq; [apply relw_pre|apply relw_post]);
        try apply relw_var; try apply relw_tpr; try apply relw_nodes; unfold int_out, strlit_out; try solve [rw].
      all: try (apply relw_seq; [rw|]; apply relw_tp).
      - apply relw_seq; [rw|]. apply relw_seq; [apply relw_tp|rw].
      - apply relw_seq; [rw|]. apply relw_seq; [rw|apply relw_tp].
      - destruct (resolve sg KNodes components) as [n|]; [|rw]. destruct n; try rw. apply relw_nodes.
    Qed.
    Lemma relw_node m n : relw (out_node E sg rec m n) (out_node E' sg rec' m n).
    Proof. destruct m; cbn [out_node]; [apply relw_full|apply relw_pre|apply relw_post]. Qed.
  End Node.

  Lemma relw_out sg fuel : forall m k h, relw (out fuel E sg m k h) (out fuel E' sg m k h).
  Proof.
    induction fuel as [|fuel IH]; intros m k h; cbn [out]; [apply relw_fuel|].
    destruct (resolve sg k h); [|apply relw_panic]. apply relw_node. assumption.
  Qed.
  Lemma relw_output sg k h : relw (output E sg k h) (output E' sg k h).
  Proof. unfold output. apply relw_out. Qed.
End RelOut.
