(** C38: how much work printing is.  The node graph shares nodes (back-references), so a graph of
    [n] nodes can have exponentially many paths; the printer walks paths.  Here every visit of a
    node is counted and shown to be paid for by the text written. *)
From Verif Require Import Parser Api Wf Rel RelOut Lex PrintOk ParseOk Safety Limits Cost Pieces.

(** ** The counting printer *)
(** The printer of Output.v, one step of which (/repo/src/nodes/derived.rs, every
    [child.resolve(cache).output*(..)]) is the same [out_node], except that every visit adds one
    to the [capacity] field of the buffer.  The counting starts from a capacity no smaller than the
    output limit, so that the allocation policy never touches that field. *)
Definition tick (b : buf) : buf := mkBuf (b_bytes b) (b_cap b + 1).
Fixpoint out_ticking (fuel : nat) (E : env) (sg : store) (m : omode) (k : kind) (h : handle) : W :=
  fun b =>
  match fuel with
  | O => w_fuel (tick b)
  | S fuel =>
    match resolve sg k h with
    | None => w_panic (tick b)
    | Some n => out_node E sg (out_ticking fuel E sg) m n (tick b)
    end
  end.
Definition counted (E : env) (sg : store) (k : kind) (h : handle) : buf * res unit :=
  out_ticking (S (length sg)) E sg OFull k h (mkBuf [] (e_out E)).
(** The number of visits made while printing the node [h], whether the printing succeeds or stops at
    the output limit. *)
Definition visits (E : env) (sg : store) (k : kind) (h : handle) : N :=
  (b_cap (fst (counted E sg k h)) - e_out E)%N.

(** ** The counting is faithful *)
Lemma relw_ticking E sg fuel : forall m k h,
  relw (fun _ => False) False (out_ticking fuel E sg m k h) (out fuel E sg m k h).
Proof.
  induction fuel as [|fuel IH]; intros m k h b b' Hb; cbn [out_ticking out].
  - apply relw_fuel. exact Hb.
  - destruct (resolve sg k h) as [n|]; [|apply relw_panic; exact Hb].
    apply (relw_node (fun _ => False) False E E); [split; auto| |exact IH|exact Hb].
    intros u c c' Hc. right. destruct (lim_str E u c c' Hc) as (H1 & H2). split; auto.
Qed.

Section Effort.
  Variable E : env.
  Variable sg : store.
  (** The nodes that may be printed: closed under children, and the components of a qualified name
      among them are identifiers. *)
  Variable good : handle -> Prop.
  Hypothesis good_node : forall h nd, good h -> nth_error sg h = Some nd ->
    (forall x c, In (x, c) (kids nd) -> good c) /\ (forall c, nd = NQual c -> kind_at sg KIdents c).
  Variable D : Z.
  Hypothesis D0 : (0 <= D)%Z.

  Definition paid (b : buf) : Z := (Z.of_N (b_cap b) - D * Z.of_nat (length (b_bytes b)))%Z.
  (** A writer that leaves at most [O] visits unpaid when it succeeds and [A] when it stops. *)
  Definition ready (b : buf) : Prop := (e_out E <= b_cap b)%N /\ (N.of_nat (length (b_bytes b)) <= e_out E)%N.
  Definition eff (O A : Z) (w : W) : Prop := forall b, ready b ->
    ready (fst (w b)) /\
    match snd (w b) with
    | Ok _ => (paid (fst (w b)) <= paid b + O)%Z
    | _ => (paid (fst (w b)) <= paid b + A)%Z
    end.

  Lemma eff_le O A O' A' w : eff O A w -> (O <= O')%Z -> (A <= A')%Z -> eff O' A' w.
  Proof. intros H HO HA b Hb. destruct (H b Hb) as [H1 H2]. split; [exact H1|]. destruct (snd (w b)); lia. Qed.
  Lemma eff_ret : eff 0 0 w_ret.
  Proof. intros b Hb. cbn. split; [exact Hb|lia]. Qed.
  Lemma eff_panic O : eff O 0 w_panic.
  Proof. intros b Hb. cbn. split; [exact Hb|lia]. Qed.
  Lemma eff_seq O1 A1 O2 A2 w1 w2 : eff O1 A1 w1 -> eff O2 A2 w2 -> eff (O1 + O2) (Z.max A1 (O1 + A2)) (w1 >> w2).
  Proof.
    intros H1 H2 b Hb. destruct (H1 b Hb) as [Hc Hp]. unfold w_seq. destruct (w1 b) as [b1 [[]|e| |]]; cbn [fst snd] in *;
      try (split; [exact Hc|lia]).
    destruct (H2 b1) as [Hc2 Hp2]; [exact Hc|]. split; [exact Hc2|]. destruct (snd (w2 b1)); lia.
  Qed.
  Lemma eff_if c O A w : eff O A w -> eff (Z.max 0 O) (Z.max 0 A) (w_if c w).
  Proof. intros H. destruct c; cbn [w_if]; eapply eff_le; try exact H; try exact eff_ret; lia. Qed.
  Lemma eff_ite (c : bool) O A O' A' w w' : eff O A w -> eff O' A' w' -> eff (Z.max O O') (Z.max A A') (if c then w else w').
  Proof. intros H H'. destruct c; eapply eff_le; try exact H; try exact H'; lia. Qed.
  Lemma eff_opt {X} (o : option X) O A f : (forall x, o = Some x -> eff O A (f x)) -> eff (Z.max 0 O) (Z.max 0 A) (w_opt o f).
  Proof.
    intros H. destruct o as [x|]; cbn [w_opt].
    - eapply eff_le; [apply H; reflexivity|lia|lia].
    - eapply eff_le; [exact eff_ret|lia|lia].
  Qed.
  Lemma part_none ps l c : (e_out E <= c)%N -> (N.of_nat l <= e_out E)%N ->
    part_cap E ps l c = c /\ (N.of_nat (l + part_len E ps l) <= e_out E)%N.
  Proof.
    intros Hc Hl. destruct (part_facts E ps l c) as (H1 & _ & _ & H4).
    assert (H : (N.of_nat (l + part_len E ps l) <= e_out E)%N).
    { destruct (N.eq_dec (N.of_nat l) (e_out E)) as [Z|Z]; [|specialize (H4 ltac:(lia)); lia].
      assert (part_len E ps l = 0) as ->; [|lia]. clear - Z. induction ps as [|[|k] ps IH]; cbn [part_len]; [reflexivity|exact IH|].
      replace (N.of_nat (l + S k) <? e_out E)%N with false by (symmetry; apply N.ltb_ge; lia). reflexivity. }
    split; [apply H1; lia|exact H].
  Qed.
  Lemma utf8_cons c s : (1 <= length (utf8 (c :: s)))%nat.
  Proof.
    unfold utf8. cbn [flat_map]. rewrite app_length, Utf8.utf8_char_len. pose proof (Utf8.utf8_len_pos c). lia.
  Qed.
  Lemma eff_cons c s : eff (- D) 0 (w_str E (c :: s)).
  Proof.
    intros b [Hb Hb2]. unfold w_str. destruct (N.ltb_spec (N.of_nat (length (b_bytes b) + length (utf8 (c :: s)))) (e_out E)) as [Hl|Hl];
      cbn [fst snd b_cap b_bytes].
    - rewrite (proj1 (part_none _ _ _ Hb Hb2)). split; [split; cbn [b_cap b_bytes]; [lia|rewrite app_length; lia]|]. unfold paid. cbn [b_cap b_bytes]. rewrite app_length.
      pose proof (utf8_cons c s). nia.
    - destruct (part_none (clip (p_cut (e_grow E) (b_bytes b) (c :: s)) (length (utf8 (c :: s)))) _ _ Hb Hb2) as [H1 H2].
      rewrite H1. split; [split; cbn [b_cap b_bytes]; [exact Hb|rewrite app_length, firstn_length; lia]|].
      unfold paid. cbn [b_cap b_bytes]. rewrite app_length. nia.
  Qed.
  Lemma eff_str s : eff 0 0 (w_str E s).
  Proof. destruct s as [|c s]; [exact eff_ret|]. eapply eff_le; [apply eff_cons|lia|lia]. Qed.
  Lemma eff_put s : eff 0 0 (put E s).
  Proof. apply eff_str. Qed.
  Lemma eff_put_cons s : s <> [] -> eff (- D) 0 (put E s).
  Proof. destruct s; [congruence|]. intros _. apply eff_cons. Qed.
  Lemma eff_space : eff 0 0 (space_if_necessary E).
  Proof.
    intros b Hb. unfold space_if_necessary. destruct (last_char b) as [c|]; [|exact (eff_ret b Hb)].
    destruct (_ || _); [exact (eff_str _ b Hb)|exact (eff_ret b Hb)].
  Qed.

  Ltac ne := let H := fresh in intros H; apply (f_equal (@length N)) in H; cbn in H; discriminate H.
  Ltac ef1 :=
    match goal with
    | |- eff _ _ w_ret => exact eff_ret
    | |- eff _ _ w_panic => apply eff_panic
    | |- eff _ _ (w_str E _) => apply eff_str
    | |- eff _ _ (put E _) => first [apply eff_put_cons; ne | apply eff_put]
    | |- eff _ _ (space_if_necessary E) => apply eff_space
    | |- eff _ _ (w_seq _ _) => eapply eff_seq
    | |- eff _ _ (w_if _ _) => eapply eff_if
    | |- eff _ _ (if _ then _ else _) => eapply eff_ite
    | |- eff _ _ (w_opt _ _) => eapply eff_opt; let x := fresh "x" in let H := fresh "Hx" in intros x H
    end.
  Ltac ef := repeat ef1.
  Ltac zz := first [lia | nia].

  Lemma eff_if_present p O A w sb k : eff 0 0 w -> (forall b, eff O A (k b)) -> (0 <= O)%Z -> (0 <= A)%Z ->
    eff O A (if_present E p w sb k).
  Proof.
    intros Hw Hk HO HA. unfold if_present. destruct p; [|apply Hk].
    eapply eff_le; [eapply eff_seq; [eapply eff_if, eff_str|eapply eff_seq; [exact Hw|apply Hk]]|lia|lia].
  Qed.
  Lemma eff_restrict : eff 0 0 (single_restrict E).
  Proof. unfold single_restrict. destruct (no_ms_keywords E); [exact eff_ret|]. destruct (no_leading_underscores E); apply eff_str. Qed.
  Lemma eff_quals q sb sa : eff 0 0 (out_quals E q sb sa).
  Proof.
    unfold out_quals. destruct (q =? Q_None)%N; [exact eff_ret|]. intros b Hb.
    set (k := fun b1 => w_if (sa && (length (b_bytes b) <? length (b_bytes b1))) (w_str E (L " ")) b1).
    assert (Hk : eff 0 0 k).
    { intros b1 Hb1. unfold k. eapply eff_le; [eapply eff_if, eff_str|lia|lia|exact Hb1]. }
    refine (eff_le _ _ _ _ _ (eff_seq 0 0 0 0 _ k _ Hk) _ _ b Hb); [|lia|lia].
    unfold single_const, single_volatile.
    repeat (apply eff_if_present; [first [apply eff_str|apply eff_restrict]|intros ?|lia|lia]). exact eff_ret.
  Qed.
  Lemma eff_cc c : eff 0 0 (out_cc E c).
  Proof. unfold out_cc. eapply eff_le; [ef|lia|lia]. Qed.

  (** The multiples of the depth that may stay unpaid, by the kind of node asked for. *)
  Definition ck (m : omode) (k : kind) : Z :=
    match m with
    | OFull =>
      match k with
      | KIdent | KQual | KNamed | KStructor | KLsg | KVcall => 1
      | KType | KSig | KFSig | KPtr => 2
      | KSym | KVar | KFunc => 3
      | _ => 4
      end
    | _ => 1
    end%Z.

  Section Node.
    Variable rec : omode -> kind -> handle -> W.
    Variable n : Z.
    Hypothesis n0 : (0 <= n)%Z.
    Variable X : Z.
    Hypothesis X0 : (4 * n <= X)%Z.
    Hypothesis nD : (4 * n + 4 <= D)%Z.
    Hypothesis Hrec : forall m k h, good h -> eff (ck m k * n) (X) (rec m k h).
    Hypothesis Hid : forall h nd, good h -> nth_error sg h = Some nd -> is_ident nd = true -> eff n (X) (rec OFull KAny h).

    Lemma eff_rec m k h : good h -> eff (ck m k * n) (X) (rec m k h).
    Proof. apply Hrec. Qed.
    Definition goods (l : list (xkind * handle)) : Prop := forall x c, In (x, c) l -> good c.

    Ltac kid := match goal with H : goods ?l |- good ?c => eapply H; cbn; rewrite ?in_app_iff; cbn;
      subst; repeat match goal with Hx : ?o = Some c |- _ => rewrite Hx end; cbn; eauto 8 end.
    Lemma free_seq w1 w2 : eff 0 0 w1 -> eff 0 0 w2 -> eff 0 0 (w1 >> w2).
    Proof. intros H1 H2. eapply eff_le; [eapply eff_seq; eassumption|lia|lia]. Qed.
    Lemma free_if c w : eff 0 0 w -> eff 0 0 (w_if c w).
    Proof. intros H. eapply eff_le; [eapply eff_if; eassumption|lia|lia]. Qed.
    Lemma free_ite (c : bool) w w' : eff 0 0 w -> eff 0 0 w' -> eff 0 0 (if c then w else w').
    Proof. destruct c; auto. Qed.
    Lemma free_opt {Y} (o : option Y) f : (forall x, eff 0 0 (f x)) -> eff 0 0 (w_opt o f).
    Proof. intros H. destruct o; [apply H|exact eff_ret]. Qed.
    Ltac free := solve [repeat match goal with
    | |- eff _ _ w_ret => exact eff_ret
    | |- eff _ _ w_panic => apply eff_panic
    | |- eff _ _ (w_str E _) => apply eff_str
    | |- eff _ _ (put E _) => apply eff_put
    | |- eff _ _ (space_if_necessary E) => apply eff_space
    | |- eff _ _ (out_quals E _ _ _) => apply eff_quals
    | |- eff _ _ (out_cc E _) => apply eff_cc
    | |- eff _ _ (w_seq _ _) => apply free_seq
    | |- eff _ _ (w_if _ _) => apply free_if
    | |- eff _ _ (if _ then _ else _) => apply free_ite
    | |- eff _ _ (w_opt _ _) => apply free_opt; intros ?
    | |- eff _ _ (match ?x with _ => _ end) => destruct x
    end].
    Ltac er := repeat first [lazymatch goal with |- eff _ _ (put E _) => fail | _ => free end | ef1
      | match goal with
        | |- eff _ _ (rec _ _ _) => eapply Hrec; kid
        | |- eff _ _ (out_quals E _ _ _) => apply eff_quals
        | |- eff _ _ (out_cc E _) => apply eff_cc
        end].
    Ltac done := cbn [ck]; lia.

    Lemma eff_fsig_pre f p : goods (fsig_kids f) -> eff n (X) (fsig_pre E rec f p).
    Proof.
      intros Hk. unfold fsig_kids in Hk. unfold fsig_pre. eapply eff_le; [er|done|done].
    Qed.
    Lemma eff_variadic :
      eff 0 0 (fun b => match last_char b with Some c => w_if (negb (c =? ch "(")%N) (put E (L ", ")) b | None => w_ret b end).
    Proof.
      intros b Hb. destruct (last_char b) as [c|]; [|exact (eff_ret b Hb)].
      destruct (negb _); [exact (eff_str _ b Hb)|exact (eff_ret b Hb)].
    Qed.
    Lemma eff_fsig_post f p : goods (fsig_kids f) -> eff n (X) (fsig_post E rec f p).
    Proof.
      intros Hk. unfold fsig_kids in Hk. unfold fsig_post.
      assert (Hp : eff (4 * n) (X) (match fs_params f with Some h => rec OFull KNodes h | None => put E (L "void") end)).
      { destruct (fs_params f) eqn:Hf; [|eapply eff_le; [apply eff_put|lia|lia]]. eapply eff_le; [er|done|done]. }
      eapply eff_le.
      - eapply eff_seq.
        + eapply eff_if. eapply eff_seq; [er|]. eapply eff_seq; [exact Hp|]. eapply eff_seq; [|er].
          eapply eff_if. eapply eff_seq; [apply eff_variadic|er].
        + eapply eff_seq; [er|]. eapply eff_seq; [er|]. eapply eff_seq; [|er].
          eapply eff_if. eapply eff_opt. intros [] _; [apply eff_put|apply eff_put].
      - done.
      - done.
    Qed.
    Lemma eff_thunk_pre f p : goods (fsig_kids f) -> eff n (X) (thunk_pre E rec f p).
    Proof.
      intros Hk. unfold thunk_pre. eapply eff_le; [eapply eff_seq; [er|apply eff_fsig_pre; exact Hk]|done|done].
    Qed.
    Lemma eff_thunk_post f ta p : goods (fsig_kids f) -> eff n (X) (thunk_post E rec f ta p).
    Proof.
      intros Hk. unfold thunk_post. eapply eff_le; [eapply eff_seq; [er|apply eff_fsig_post; exact Hk]|done|done].
    Qed.
    Lemma eff_sig_pre nd p : goods (kids nd) -> eff n (X) (sig_pre E rec nd p).
    Proof.
      intros Hk. destruct nd; cbn [sig_pre]; try (eapply eff_le; [apply (eff_panic 0)|done|done]);
        first [apply eff_fsig_pre|apply eff_thunk_pre]; exact Hk.
    Qed.
    Lemma eff_sig_post nd p : goods (kids nd) -> eff n (X) (sig_post E rec nd p).
    Proof.
      intros Hk. destruct nd; cbn [sig_post]; try (eapply eff_le; [apply (eff_panic 0)|done|done]);
        first [apply eff_fsig_post|apply eff_thunk_post]; exact Hk.
    Qed.
    Lemma good_kids h nd : good h -> nth_error sg h = Some nd -> goods (kids nd).
    Proof. intros Hg Hn. exact (proj1 (good_node h nd Hg Hn)). Qed.
    Lemma resolve_nth k h nd : resolve sg k h = Some nd -> nth_error sg h = Some nd /\ hkind k nd = true.
    Proof.
      unfold resolve. destruct (nth_error sg h) as [m|]; [|discriminate]. destruct (hkind k m) eqn:Hk; [|discriminate].
      intros H. injection H as <-. auto.
    Qed.
    Lemma eff_ptr_pre q a cls p : goods (opt_kid KQual cls ++ [(KK KType, p)]) ->
      eff n (X + n) (ptr_pre E sg rec q a cls p).
    Proof.
      intros Hk. unfold ptr_pre. destruct (resolve sg KType p) as [nd|] eqn:Hr; [|eapply eff_le; [apply (eff_panic 0)|done|done]].
      apply resolve_nth in Hr. destruct Hr as [Hr _].
      assert (Hgp : good p) by (eapply Hk; rewrite in_app_iff; cbn; eauto).
      assert (H1 : eff n (X) (if is_sig nd then sig_pre E rec nd true else rec OPre KType p)).
      { destruct (is_sig nd); [apply eff_sig_pre; eapply good_kids; eassumption|].
        eapply eff_le; [apply Hrec; exact Hgp|done|done]. }
      eapply eff_le.
      - eapply eff_seq; [exact H1|]. eapply eff_seq; [er|]. eapply eff_seq; [er|]. eapply eff_seq; [er|].
        eapply eff_seq; [er|]. eapply (eff_seq 0 0 0 0); [|apply eff_quals].
        destruct a as [[]|]; first [apply eff_put|apply eff_panic].
      - done.
      - done.
    Qed.
    Lemma eff_ptr_post p : good p -> eff n (X) (ptr_post E sg rec p).
    Proof.
      intros Hgp. unfold ptr_post. destruct (resolve sg KType p) as [nd|] eqn:Hr; [|eapply eff_le; [apply (eff_panic 0)|done|done]].
      apply resolve_nth in Hr. destruct Hr as [Hr _].
      assert (H1 : eff n (X) (if is_sig nd then sig_post E rec nd true else rec OPost KType p)).
      { destruct (is_sig nd); [apply eff_sig_post; eapply good_kids; eassumption|].
        eapply eff_le; [apply Hrec; exact Hgp|done|done]. }
      eapply eff_le; [eapply eff_seq; [er|exact H1]|done|done].
    Qed.
    Lemma eff_one_dim h : eff 0 0 (one_dim E sg h).
    Proof.
      unfold one_dim, int_out. destruct (resolve sg KAny h) as [[]|]; try apply eff_panic.
      eapply eff_le; [er|done|done].
    Qed.
    Lemma eff_rest_dims l : eff 0 0 (rest_dims E sg l).
    Proof.
      induction l; cbn [rest_dims]; [exact eff_ret|].
      eapply eff_le; [eapply eff_seq; [er|eapply eff_seq; [apply eff_one_dim|eassumption]]|done|done].
    Qed.
    Lemma eff_dims d : eff 0 0 (out_dims E sg d).
    Proof.
      unfold out_dims. destruct (resolve sg KNodes d) as [[]|]; try apply eff_panic. destruct l; [exact eff_ret|].
      eapply eff_le; [eapply eff_seq; [apply eff_one_dim|apply eff_rest_dims]|done|done].
    Qed.
    Lemma eff_tp tp : goods (opt_kid KNodes tp) -> eff 0 (X) (out_tp E rec tp).
    Proof. intros Hk. unfold out_tp. eapply eff_le; [er|done|done]. Qed.
    Lemma eff_nodes c sep l : (0 <= c <= 4)%Z -> sep <> [] -> Forall (fun h => eff (c * n) (X) (rec OFull KAny h)) l ->
      eff (c * n) (X + 4 * n) (out_nodes E rec sep l).
    Proof.
      intros Hc Hs Hl. assert (Hcn : (0 <= c * n <= 4 * n)%Z) by nia.
      assert (Hr : forall l, Forall (fun h => eff (c * n) (X) (rec OFull KAny h)) l -> eff 0 (X) (rest_nodes E rec sep l)).
      { clear l Hl. induction 1 as [|h l Hh Hl IH]; cbn [rest_nodes].
        - eapply eff_le; [exact eff_ret|done|done].
        - eapply eff_le; [eapply eff_seq; [apply eff_put_cons; exact Hs|eapply eff_seq; [exact Hh|exact IH]]|done|done]. }
      destruct Hl as [|h l Hh Hl]; cbn [out_nodes].
      - eapply eff_le; [exact eff_ret|done|done].
      - eapply eff_le; [eapply eff_seq; [exact Hh|apply Hr; exact Hl]|done|done].
    Qed.
    Lemma eff_pre nd : goods (kids nd) -> eff n (X + n) (out_pre E sg rec nd).
    Proof.
      intros Hk. destruct nd; cbn [out_pre kids] in *; try (eapply eff_le; [apply (eff_panic 0)|done|done]).
      - eapply eff_le; [er|done|done].
      - eapply eff_le; [apply eff_fsig_pre; exact Hk|done|done].
      - eapply eff_le; [apply eff_thunk_pre; exact Hk|done|done].
      - apply eff_ptr_pre. exact Hk.
      - eapply eff_le; [er|done|done].
      - eapply eff_le; [er|done|done].
      - eapply eff_le; [er|done|done].
    Qed.
    Lemma eff_post nd : goods (kids nd) -> eff n X (out_post E sg rec nd).
    Proof.
      intros Hk. destruct nd; cbn [out_post kids] in *; try (eapply eff_le; [apply (eff_panic 0)|done|done]);
        try (eapply eff_le; [apply eff_ret|done|done]).
      - apply eff_fsig_post; exact Hk.
      - apply eff_thunk_post; exact Hk.
      - apply eff_ptr_post. kid.
      - eapply eff_le; [eapply eff_seq; [er|eapply eff_seq; [apply eff_dims|er]]|done|done].
    Qed.
    Lemma eff_both nd : goods (kids nd) -> eff (2 * n) (X + n) (out_pre E sg rec nd >> out_post E sg rec nd).
    Proof. intros Hk. eapply eff_le; [eapply eff_seq; [apply eff_pre; exact Hk|apply eff_post; exact Hk]|done|done]. Qed.
    Lemma eff_var name sc ty : goods (kids (NVar name sc ty)) -> eff (3 * n) (X + 2 * n) (var_out E rec name sc ty).
    Proof.
      intros Hk. unfold var_out.
      destruct (match sc with Some PrivateStatic => _ | _ => _ end) as [acc st].
      destruct name as [[h|]|].
      - cbv zeta. cbn [kids] in Hk.
        set (ty' := if negb (no_variable_type E) && negb (name_only E) then ty else None).
        assert (Ht : forall t, ty' = Some t -> good t).
        { intros t. unfold ty'. destruct (_ && _); [|discriminate]. intros Hx. kid. }
        clearbody ty'. eapply eff_le.
        + eapply eff_seq; [er|]. eapply eff_seq; [er|].
          eapply eff_seq; [eapply eff_opt; intros x Hx; eapply eff_seq; [apply Hrec, Ht, Hx|er]|].
          eapply eff_seq; [er|]. eapply eff_opt; intros x Hx; apply Hrec, Ht, Hx.
        + done.
        + done.
      - cbn [kids] in Hk. eapply eff_le; [er|done|done].
      - eapply eff_le; [er|done|done].
    Qed.
    Lemma eff_tpr sym offs a : goods (opt_kid KSym sym) -> eff (3 * n) (X + 3 * n) (tpr_out E rec sym offs a).
    Proof.
      intros Hk. unfold tpr_out. eapply eff_le.
      - eapply (eff_seq 0 0); [destruct offs; free|]. eapply eff_seq; [er|]. instantiate (1 := 0%Z). instantiate (1 := 0%Z).
        destruct offs as [|z zs]; [free|].
        apply free_seq; [free|]. induction zs; cbn [fold_right]; [free|]. apply free_seq; [free|assumption].
      - done.
      - done.
    Qed.
    Definition cn (nd : node) : Z :=
      match nd with
      | NQual _ => 1
      | _ => if is_ident nd then 1 else if is_type nd then 2 else if is_sym nd then 3 else 4
      end%Z.
    Lemma eff_full nd : goods (kids nd) ->
      (forall c, nd = NQual c -> kind_at sg KIdents c) ->
      eff (cn nd * n) (X + 4 * n) (out_full E sg rec nd).
    Proof.
      intros Hk Hq.
      assert (Htp : forall tp, goods (opt_kid KNodes tp) -> eff 0 X (out_tp E rec tp)) by (intros; apply eff_tp; assumption).
      destruct nd; cbn [out_full cn is_ident is_type is_sym] in *; unfold int_out, strlit_out in *;
        try (eapply eff_le; [apply eff_both; exact Hk|done|done]);
        try (eapply eff_le; [apply eff_var; exact Hk|done|done]);
        try (eapply eff_le; [apply eff_tpr; exact Hk|done|done]);
        cbn [kids] in Hk; try solve [eapply eff_le; [er|done|done]].
      - destruct id; eapply eff_le; [er|done|done|er|done|done].
      - eapply eff_le; [eapply eff_seq; [er|apply Htp; exact Hk]|done|done].
      - eapply eff_le; [eapply eff_seq; [er|apply Htp; exact Hk]|done|done].
      - eapply eff_le; [eapply eff_seq; [er|apply Htp; exact Hk]|done|done].
      - eapply eff_le; [eapply eff_seq; [er|eapply eff_seq; [apply Htp; intros x c Hc; eapply Hk, in_or_app; eauto|er]]|done|done].
      - eapply eff_le; [eapply eff_seq; [er|eapply eff_seq; [er|apply Htp; intros x c Hc; eapply Hk, in_or_app; eauto]]|done|done].
      - apply eff_nodes; [lia|ne|]. apply Forall_forall. intros h Hh. change (4 * n)%Z with (ck OFull KAny * n)%Z.
        apply Hrec. eapply Hk. apply in_map. exact Hh.
      - destruct (Hq _ eq_refl) as (l & Hl & Hf). unfold resolve. rewrite Hl. cbn [hkind].
        apply eff_nodes; [lia|ne|]. apply Forall_forall. intros h Hh. rewrite Forall_forall in Hf.
        destruct (Hf h Hh) as (nd & Hnd & Hi). rewrite Z.mul_1_l. eapply Hid; [|exact Hnd|exact Hi].
        assert (Hgc : good components) by (eapply Hk; left; reflexivity).
        eapply (good_kids _ _ Hgc Hl). apply in_map. exact Hh.
    Qed.
    Lemma eff_node m nd : goods (kids nd) -> (forall c, nd = NQual c -> kind_at sg KIdents c) ->
      eff (match m with OFull => cn nd | _ => 1 end * n) (X + 4 * n) (out_node E sg rec m nd).
    Proof.
      intros Hk Hq. destruct m; cbn [out_node].
      - apply eff_full; assumption.
      - eapply eff_le; [apply eff_pre; assumption|done|done].
      - eapply eff_le; [apply eff_post; assumption|done|done].
    Qed.
  End Node.

  Lemma eff_tick O A w : eff O A w -> eff (1 + O) (1 + A) (fun b => w (tick b)).
  Proof.
    intros H b [Hb Hb2]. destruct (H (tick b)) as [H1 H2]; [split; cbn; lia|].
    assert (Hp : paid (tick b) = (paid b + 1)%Z) by (unfold paid; cbn [tick b_cap b_bytes]; lia).
    split; [exact H1|]. destruct (snd (w (tick b))); lia.
  Qed.
  Lemma cn_kind k nd : hkind k nd = true -> (1 <= cn nd <= ck OFull k)%Z.
  Proof. destruct nd, k; cbn; intros H; try discriminate H; lia. Qed.

  (** The multiple for a call, by what is found at [h]. *)
  Definition cm (m : omode) (h : handle) : Z :=
    match m with OFull => match nth_error sg h with Some nd => cn nd | None => 1 end | _ => 1 end.
  Lemma cn_pos nd : (1 <= cn nd)%Z.
  Proof. destruct nd; cbn; lia. Qed.
  Lemma cm_pos m h : (1 <= cm m h)%Z.
  Proof. destruct m; cbn [cm]; try lia. destruct (nth_error sg h); [apply cn_pos|lia]. Qed.
  Lemma eff_ticking fuel : (4 * Z.of_nat fuel <= D)%Z -> forall m k h, good h ->
    eff (cm m h * Z.of_nat fuel) (1 + D * Z.of_nat fuel) (out_ticking fuel E sg m k h).
  Proof.
    induction fuel as [|fuel IH]; intros HD m k h Hw; cbn [out_ticking].
    - apply (eff_le (1 + -1) (1 + 0)); [|pose proof (cm_pos m h); lia|lia]. apply eff_tick. intros b Hb. split; [exact Hb|]. cbn. lia.
    - destruct (resolve sg k h) as [nd|] eqn:Hr.
      2: { apply (eff_le (1 + -1) (1 + 0)); [|pose proof (cm_pos m h); nia|nia]. apply eff_tick. apply eff_panic. }
      apply resolve_nth in Hr. destruct Hr as [Hn Hk].
      eapply eff_le; [apply eff_tick; apply (eff_node _ (Z.of_nat fuel)) with (X := (1 + D * Z.of_nat fuel)%Z)|..].
      + lia.
      + nia.
      + lia.
      + intros m' k' h' Hw'. destruct (nth_error sg h') as [nd'|] eqn:Hn'.
        2: { destruct fuel as [|f]; [eapply eff_le; [apply (IH ltac:(lia) m' k' h' Hw')|nia|lia]|]. cbn [out_ticking].
          unfold resolve. rewrite Hn'.
          apply (eff_le (1 + -1) (1 + 0)); [apply eff_tick, eff_panic| |nia].
          destruct m'; cbn [ck]; try lia. destruct k'; lia. }
        destruct (hkind k' nd') eqn:Hk'.
        * eapply eff_le; [apply IH; [lia|exact Hw']|..]; [|lia].
          unfold cm. rewrite Hn'. destruct m'; cbn [ck]; try lia. pose proof (cn_kind _ _ Hk') as Hc. cbn [ck] in Hc. nia.
        * destruct fuel as [|f]; [eapply eff_le; [apply (IH ltac:(lia) m' k' h' Hw')|nia|lia]|]. cbn [out_ticking].
          unfold resolve. rewrite Hn', Hk'.
          apply (eff_le (1 + -1) (1 + 0)); [apply eff_tick, eff_panic| |nia].
          destruct m'; cbn [ck]; try lia. destruct k'; lia.
      + intros h' nd' Hw' Hn' Hi'. eapply eff_le; [apply IH; [lia|exact Hw']|..]; [|lia].
        unfold cm. rewrite Hn'. assert (Hc : cn nd' = 1%Z) by (destruct nd'; cbn in Hi'; try discriminate Hi'; reflexivity).
        rewrite Hc. lia.
      + eapply good_kids; eassumption.
      + exact (proj2 (good_node h nd Hw Hn)).
      + unfold cm. rewrite Hn. pose proof (cn_pos nd). destruct m; lia.
      + lia.
  Qed.
End Effort.

(** ** C38 *)
Lemma wf_good okc sg P h nd : wf okc sg P h -> nth_error sg h = Some nd ->
  (forall x c, In (x, c) (kids nd) -> wf okc sg P c) /\ (forall c, nd = NQual c -> kind_at sg KIdents c).
Proof.
  intros Hg Hn. destruct (wf_inv _ _ _ _ Hg) as (m & Hm & _ & [_ Hok] & Hk). assert (m = nd) by congruence. subst m.
  split; [exact Hk|]. intros c ->. apply Hok. left. reflexivity.
Qed.
Lemma printing_effort_wf okc E sg P k h : wf okc sg P h ->
  let L := N.of_nat (S (length sg)) in
  let bytes := N.of_nat (length (b_bytes (fst (counted E sg k h)))) in
  (bytes <= e_out E)%N /\
  match snd (counted E sg k h) with
  | Ok _ => (visits E sg k h <= 4 * L * (bytes + 1))%N
  | _ => (visits E sg k h <= 4 * L * (bytes + L) + 1)%N
  end.
Proof.
  intros Hw L bytes.
  destruct (eff_ticking E sg (wf okc sg P) (wf_good okc sg P) (4 * Z.of_N L)%Z ltac:(lia) (S (length sg)) ltac:(lia) OFull k h Hw (mkBuf [] (e_out E)))
    as [[H1 H2] H3]; [split; cbn; lia|].
  change (out_ticking (S (length sg)) E sg OFull k h (mkBuf [] (e_out E))) with (counted E sg k h) in *.
  split; [exact H2|]. unfold visits, paid in *. cbn [b_cap b_bytes length] in H3. fold bytes in H2.
  assert (Hc : (cm sg OFull h <= 4)%Z).
  { cbn [cm]. destruct (nth_error sg h) as [nd|]; [|lia]. destruct nd; cbn; lia. }
  destruct (snd (counted E sg k h)); unfold bytes; nia.
Qed.

(** C38 (the counter is faithful).  The counting printer writes what the printer writes and ends as it
    ends, whatever buffer the printer was given. *)
Theorem counting_is_faithful : forall (E : env) (sg : store) (k : kind) (h : handle) (capacity : N),
  snd (counted E sg k h) = snd (output E sg k h (mkBuf [] capacity)) /\
  (snd (counted E sg k h) = Ok tt ->
   b_bytes (fst (counted E sg k h)) = b_bytes (fst (output E sg k h (mkBuf [] capacity)))).
Proof.
  intros E sg k h c.
  destruct (relw_ticking E sg (S (length sg)) OFull k h (mkBuf [] (e_out E)) (mkBuf [] c) eq_refl) as [Hbad|[H1 H2]].
  - exfalso. destruct (snd (out_ticking _ _ _ _ _ _ _)); exact Hbad.
  - split; [exact H1|exact H2].
Qed.
Print Assumptions counting_is_faithful.

Lemma nodes_linear E s h st : rust_str s -> parse (code_limits E) s = Ok (h, st) ->
  (4 * N.of_nat (length (s_store st)) < 5 * N.of_nat (length s))%N /\ (N.of_nat (length (s_store st)) <= 2048)%N.
Proof.
  intros Hs Hp.
  pose proof (parse_with_ok (code_limits E) (S (length s)) s Hs (Nat.lt_succ_diag_r _)) as Hok. unfold parse in Hp.
  rewrite Hp in Hok. destruct Hok as [_ Hn]. cbn [code_limits e_nodes] in Hn. unfold max_nodes in Hn. split; [|exact Hn].
  destruct (N.leb_spec (5 * N.of_nat (length s)) 8192) as [Hl|Hl]; [|lia].
  pose proof (parse_cost (code_limits E) (S (length s)) s) as Hc. rewrite Hp in Hc. cbn [code_limits e_nodes] in Hc.
  unfold max_nodes in Hc. specialize (Hc ltac:(lia)). lia.
Qed.

(** C38.  Printing the symbol an input was parsed into visits at most [5 |input| + 3] nodes for every
    byte of text (plus one), although the nodes are shared and the number of paths through them can be
    exponential; and when the text is cut off at the output limit the work done until then is bounded
    likewise. *)
Theorem printing_effort : forall (E : env) (s : str) (h : handle) (st : st), rust_str s ->
  parse (code_limits E) s = Ok (h, st) ->
  (forall t, demangle E s = Ok t ->
    (visits (code_limits E) (s_store st) KSym h <=
     (5 * N.of_nat (length s) + 3) * (N.of_nat (length (utf8 t)) + 1))%N) /\
  (visits (code_limits E) (s_store st) KSym h <= (5 * N.of_nat (length s) + 3) * (2 ^ 20 + 2049) + 1)%N /\
  (visits (code_limits E) (s_store st) KSym h <= 8196 * (2 ^ 20 + 2049) + 1)%N.
Proof.
  intros E s h st Hs Hp.
  destruct (nodes_linear E s h st Hs Hp) as [Hn1 Hn2].
  pose proof (parse_with_ok (code_limits E) (S (length s)) s Hs (Nat.lt_succ_diag_r _)) as Hok.
  pose proof Hp as Hp'. unfold parse in Hp'. rewrite Hp' in Hok. destruct Hok as [[Hw _] _].
  destruct (printing_effort_wf _ (code_limits E) _ _ KSym h Hw) as [Hb He].
  set (v := visits (code_limits E) (s_store st) KSym h) in *.
  change (e_out (code_limits E)) with (2 ^ 20)%N in Hb.
  split; [|split].
  - intros t Ht. pose proof (run_facts (code_limits E) s (mkBuf [] 0) Hs ltac:(reflexivity)) as [_ Hf].
    destruct (counting_is_faithful (code_limits E) (s_store st) KSym h 0) as [F1 F2].
    unfold demangle, demangle_with in Ht. unfold demangle_into_with, clear in Ht, Hf. rewrite Hp in Ht, Hf. cbn [b_cap fst snd] in Ht, Hf.
    destruct (output (code_limits E) (s_store st) KSym h (mkBuf [] 0)) as [ob [[]|e| |]]; cbn [fst snd] in *; try discriminate Ht.
    rewrite F1 in He. specialize (F2 F1). rewrite F2 in He.
    destruct (from_utf8 (b_bytes ob)) as [u|] eqn:Hu; cbn [fst snd] in Ht; [rewrite Hu in Ht; cbn [fst snd] in Hf|discriminate Ht]. injection Ht as <-.
    destruct Hf as (t' & Ht' & Hin & _). rewrite Ht' in Hu. rewrite (from_utf8_ok s t' Hs Hin) in Hu. injection Hu as <-.
    rewrite Ht' in He. nia.
  - destruct (snd (counted (code_limits E) (s_store st) KSym h)); nia.
  - destruct (snd (counted (code_limits E) (s_store st) KSym h)); nia.
Qed.
Print Assumptions printing_effort.

(** Three parameters, the second repeating the first nine times and the third the second three times:
    18 nodes, 139 visits, 363 bytes. *)
Example effort_example : exists h st,
  parse (env_of 0) (L "?f@@YAXPAHP6AX000000000@ZP6AX111@Z@Z") = Ok (h, st) /\
  length (s_store st) = 18 /\ visits (env_of 0) (s_store st) KSym h = 139%N /\
  N.of_nat (length (b_bytes (fst (counted (env_of 0) (s_store st) KSym h)))) = 363%N.
Proof.
  destruct (parse (env_of 0) (L "?f@@YAXPAHP6AX000000000@ZP6AX111@Z@Z")) as [[h t]|e| |] eqn:Hp;
    vm_compute in Hp; try discriminate Hp.
  injection Hp as <- <-. eexists _, _. split; [reflexivity|]. split; [reflexivity|]. split; vm_compute; reflexivity.
Qed.
