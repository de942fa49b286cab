(** Printing any graph whose strings are text fails only by running out of memory, and leaves
    text in the buffer.  No well-formedness is needed.  Proof infrastructure; see SameErr.v. *)
From Verif Require Import Output Utf8 Show Emit Less LessOut.

Definition textb (b : buf) : Prop := exists x, good b x.
Definition gw (w : W) : Prop := forall b, textb b ->
  match w b with (b', Ok _) => textb b' | (_, Err e) => e = Io OutOfMemory | _ => True end.

Section Gw.
  Variable E : env.
  Lemma gw_ret : gw w_ret. Proof. intros b Hb. exact Hb. Qed.
  Lemma gw_panic : gw w_panic. Proof. intros b Hb. exact I. Qed.
  Lemma gw_fuel : gw w_fuel. Proof. intros b Hb. exact I. Qed.
  Lemma gw_seq m k : gw m -> gw k -> gw (m >> k).
  Proof. intros Hm Hk b Hb. unfold w_seq. specialize (Hm b Hb). destruct (m b) as [b' [[]|e| |]]; try exact Hm. exact (Hk b' Hm). Qed.
  Lemma gw_if c m : gw m -> gw (w_if c m).
  Proof. destruct c; intros H; [exact H|exact gw_ret]. Qed.
  Lemma gw_opt {A} (o : option A) f : (forall a, gw (f a)) -> gw (w_opt o f).
  Proof. destruct o; intros H; [apply H|exact gw_ret]. Qed.
  Lemma gw_str x : ustr x -> gw (w_str E x).
  Proof.
    intros Hx b (y & Hy1 & Hy2). unfold w_str. destruct x as [|z x]; [exists y; split; assumption|]. remember (z :: x) as zx. cbv zeta.
    destruct (_ <? _)%N; [|reflexivity]. exists (y ++ zx). split; [cbn [b_bytes]; rewrite Hy1, utf8_app; reflexivity|]. apply Forall_app. auto.
  Qed.
  Lemma gw_space : gw (space_if_necessary E).
  Proof.
    intros b Hb. unfold space_if_necessary. destruct (last_char b) as [c|]; [|exact Hb]. destruct (is_alphanumeric E c || (c =? ch ">")%N); [|exact Hb].
    apply gw_str; [us|exact Hb].
  Qed.
  Lemma gw_variadic : gw (fun b => match last_char b with Some c => w_if (negb (c =? ch "(")%N) (put E (L ", ")) b | None => w_ret b end).
  Proof.
    intros b Hb. destruct (last_char b) as [c|]; [|exact Hb]. apply gw_if; [|exact Hb]. apply gw_str. us.
  Qed.
  Lemma ustr_lit s : forallb (fun c => (c <? 128)%N) s = true -> ustr s.
  Proof.
    intros H. apply Forall_forall. rewrite forallb_forall in H. intros c Hc. specialize (H c Hc). apply N.ltb_lt in H. unfold scalar.
    destruct (N.ltb_spec c 0xD800)%N; [reflexivity|lia].
  Qed.
  Ltac gx := first [us|apply ustr_lit; reflexivity].
  Ltac g1 := match goal with
    | |- gw (_ >> _) => apply gw_seq
    | |- gw w_ret => apply gw_ret
    | |- gw w_panic => apply gw_panic
    | |- gw w_fuel => apply gw_fuel
    | |- gw (w_if _ _) => apply gw_if
    | |- gw (w_opt _ _) => apply gw_opt; intros ?
    | |- gw (put _ _) => apply gw_str; try solve [gx]
    | |- gw (w_str _ _) => apply gw_str; try solve [gx]
    | |- gw (space_if_necessary _) => apply gw_space
    | |- gw (fun b => match last_char b with _ => _ end) => apply gw_variadic
    | |- gw (if ?c then _ else _) => destruct c
    end.
  Ltac gs := repeat g1.
  Lemma gw_restrict : gw (single_restrict E). Proof. unfold single_restrict. gs. Qed.
  Lemma gw_present p m sb k : gw m -> (forall b, gw (k b)) -> gw (if_present E p m sb k).
  Proof. intros Hm Hk. unfold if_present. gs; auto. Qed.
  Lemma gw_quals q sb sa : gw (out_quals E q sb sa).
  Proof.
    unfold out_quals. gs. intros b Hb. refine (gw_seq _ _ _ _ b Hb).
    - repeat (apply gw_present; [first [apply gw_restrict|unfold single_const, single_volatile; gs]|intros ?]). gs.
    - intros c Hc. refine (gw_if _ _ _ c Hc). gs.
  Qed.
  Lemma gw_cc c : gw (out_cc E c).
  Proof. unfold out_cc. gs. destruct (no_leading_underscores E), c; gx. Qed.

  Variable sg : store.
  Hypothesis Hsg : forall h n, nth_error sg h = Some n -> strs_ok n.
  Section Rec.
    Variable rec : omode -> kind -> handle -> W.
    Hypothesis Hrec : forall m k h, gw (rec m k h).
    Ltac g2 := first [g1|apply gw_cc|apply gw_quals|apply Hrec].
    Ltac gt := repeat g2.
    Lemma gw_fsig_pre f p : gw (fsig_pre E rec f p). Proof. unfold fsig_pre. gt. Qed.
    Lemma gw_fsig_post f p : gw (fsig_post E rec f p).
    Proof. unfold fsig_post. gt; try (destruct (fs_params f); gt); match goal with a : ref_qual |- _ => destruct a end; gt. Qed.
    Lemma gw_sig_pre n p : gw (sig_pre E rec n p).
    Proof. destruct n; cbn [sig_pre]; gt; [apply gw_fsig_pre|unfold thunk_pre; gt; apply gw_fsig_pre]. Qed.
    Lemma gw_sig_post n p : gw (sig_post E rec n p).
    Proof. destruct n; cbn [sig_post]; gt; [apply gw_fsig_post|unfold thunk_post; gt; apply gw_fsig_post]. Qed.
    Lemma gw_ptr_pre q a cls p : gw (ptr_pre E sg rec q a cls p).
    Proof. unfold ptr_pre. destruct (resolve sg KType p) as [n|]; gt; [apply gw_sig_pre|]. destruct a as [[]|]; gt. Qed.
    Lemma gw_ptr_post p : gw (ptr_post E sg rec p).
    Proof. unfold ptr_post. destruct (resolve sg KType p) as [n|]; gt. apply gw_sig_post. Qed.
    Lemma gw_int v neg : gw (int_out E v neg). Proof. unfold int_out. gt. destruct neg; gx. Qed.
    Lemma gw_dim h : gw (one_dim E sg h).
    Proof. unfold one_dim. destruct (resolve sg KAny h) as [[]|]; gt. apply gw_int. Qed.
    Lemma gw_rest_dims l : gw (rest_dims E sg l).
    Proof. induction l; cbn [rest_dims]; gt; [apply gw_dim|assumption]. Qed.
    Lemma gw_dims h : gw (out_dims E sg h).
    Proof. unfold out_dims. destruct (resolve sg KNodes h) as [[]|]; gt. destruct l; gt; [apply gw_dim|apply gw_rest_dims]. Qed.
    Lemma gw_tp tp : gw (out_tp E rec tp). Proof. unfold out_tp. gt. Qed.
    Lemma gw_rest sep l : ustr sep -> gw (rest_nodes E rec sep l).
    Proof. intros Hs. induction l; cbn [rest_nodes]; gt. assumption. Qed.
    Lemma gw_nodes sep l : ustr sep -> gw (out_nodes E rec sep l).
    Proof. intros Hs. destruct l; cbn [out_nodes]; gt. apply gw_rest; assumption. Qed.
    Lemma gw_prim k : ustr (prim_name k). Proof. destruct k; gx. Qed.
    Lemma gw_tag t : ustr (tag_name t). Proof. destruct t; gx. Qed.
    Lemma gw_ifk o : ustr (ifk_name o). Proof. destruct o; gx. Qed.
    Lemma gw_pre n : gw (out_pre E sg rec n).
    Proof.
      destruct n; cbn [out_pre]; gt; first [apply gw_prim|apply gw_fsig_pre|apply gw_ptr_pre|apply ustr_app; [apply gw_tag|gx]|idtac].
      unfold thunk_pre. gt. apply gw_fsig_pre.
    Qed.
    Lemma gw_post n : gw (out_post E sg rec n).
    Proof.
      destruct n; cbn [out_post]; gt; first [apply gw_fsig_post|apply gw_ptr_post|apply gw_dims|idtac].
      unfold thunk_post. gt. apply gw_fsig_post.
    Qed.
    Lemma gw_var nm sc ty : gw (var_out E rec nm sc ty).
    Proof.
      unfold var_out. destruct sc as [[]|]; cbv beta iota zeta; repeat apply gw_seq; cbn [w_opt]; gt; try (apply ustr_app; gx);
        destruct nm as [[]|]; gt; cbv zeta; gt.
    Qed.
    Lemma gw_offs zs : gw (fold_right (fun z k => put E (L ", " ++ dec_Z z) >> k) (put E (L "}")) zs).
    Proof. induction zs; cbn [fold_right]; gt. assumption. Qed.
    Lemma gw_tpr sym offs a : gw (tpr_out E rec sym offs a).
    Proof. unfold tpr_out. destruct offs; gt. apply gw_offs. Qed.
    Lemma gw_full n : strs_ok n -> gw (out_full E sg rec n).
    Proof.
      intros Hn. destruct n; cbn [out_full strs_ok] in *;
        try (apply gw_seq; [apply gw_pre|apply gw_post]); gt;
        first [apply gw_tp|apply gw_ifk|apply gw_int|apply gw_var|apply gw_tpr|assumption|idtac].
      - destruct id; gt.
      - apply gw_nodes. gx.
      - destruct (resolve sg KNodes components) as [[]|]; gt. apply gw_nodes. gx.
      - unfold strlit_out. gt. apply ustr_app; [destruct k; gx|]. apply ustr_app; [assumption|]. apply ustr_app; [gx|]. destruct trunc; gx.
    Qed.
    Lemma gw_node m n : strs_ok n -> gw (out_node E sg rec m n).
    Proof. intros Hn. destruct m; cbn [out_node]; [apply gw_full; assumption|apply gw_pre|apply gw_post]. Qed.
  End Rec.
  Lemma gw_out fuel : forall m k h, gw (out fuel E sg m k h).
  Proof.
    induction fuel as [|fuel IH]; intros m k h; cbn [out]; [gs|]. destruct (resolve sg k h) as [n|] eqn:Hn; [|gs].
    apply gw_node; [exact IH|]. apply (Hsg h). eapply resolve_nth; eassumption.
  Qed.
  Lemma gw_output k h : gw (output E sg k h). Proof. apply gw_out. Qed.
End Gw.
