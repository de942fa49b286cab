(** Two runs on texts that differ only in characters the demangler cannot tell apart, under
    two Unicode tables: the printer.  Proof infrastructure. *)
From Verif Require Import Output Utf8.

Lemma F2_length {A B} (P : A -> B -> Prop) l l' : Forall2 P l l' -> length l = length l'.
Proof. induction 1; cbn; auto. Qed.

Definition print_str (s : str) : Prop := Forall (fun c => (32 <= c <= 126)%N) s.
Lemma dec_N_print n : print_str (dec_N n).
Proof.
  eapply Forall_impl; [|apply dec_N_digits]. intros c. unfold is_digit, in_range. intros H. apply andb_prop in H. destruct H as [H1 H2].
  apply N.leb_le in H1, H2. change (ch "0") with 48%N in H1. change (ch "9") with 57%N in H2. lia.
Qed.
Lemma dec_Z_print z : print_str (dec_Z z).
Proof. destruct z; cbn [dec_Z]; try apply dec_N_print. constructor; [cbn; lia|apply dec_N_print]. Qed.

(** What it takes for two characters to be indistinguishable to the two runs. *)
Record alike (al al' : N -> bool) (R : N -> N -> Prop) : Prop := {
  al_print : forall c, (32 <= c <= 126)%N -> R c c;
  al_case : forall c c', R c c' -> c = c' \/ ((256 <= c)%N /\ (256 <= c')%N);
  al_eq : forall a a' b b', R a a' -> R b b' -> (a =? b)%N = (a' =? b')%N;
  al_len : forall c c', R c c' -> utf8_len c = utf8_len c';
  al_scalar : forall c c', R c c' -> scalar c = true /\ scalar c' = true;
  al_class : forall c c', R c c' -> (128 <= c)%N -> al c = al' c'
}.

Section Alike.
  Variables (al al' : N -> bool) (R : N -> N -> Prop).
  Hypothesis HR : alike al al' R.
  Variables (fl nd ou : N) (gr gr' : policy).
  Definition envL : env := {| e_flags := fl; e_alnum := al; e_grow := gr; e_nodes := nd; e_out := ou |}.
  Definition envR : env := {| e_flags := fl; e_alnum := al'; e_grow := gr'; e_nodes := nd; e_out := ou |}.
  Notation E := envL.
  Notation E' := envR.

  Definition Rs : str -> str -> Prop := Forall2 R.

  Lemma Rs_print s : print_str s -> Rs s s.
  Proof. induction 1; constructor; [apply (al_print _ _ _ HR); assumption|assumption]. Qed.
  Lemma Rs_lit s : forallb (in_range 32 126) s = true -> Rs s s.
  Proof.
    intros H. apply Rs_print. apply Forall_forall. rewrite forallb_forall in H. intros c Hc. specialize (H c Hc).
    unfold in_range in H. apply andb_prop in H. destruct H as [H1 H2]. apply N.leb_le in H1, H2. split; assumption.
  Qed.
  Lemma Rs_app a a' b b' : Rs a a' -> Rs b b' -> Rs (a ++ b) (a' ++ b').
  Proof. apply Forall2_app. Qed.
  Lemma Rs_length s s' : Rs s s' -> length s = length s'.
  Proof. apply F2_length. Qed.
  Lemma Rs_scalar s s' : Rs s s' -> Forall (fun c => scalar c = true) s /\ Forall (fun c => scalar c = true) s'.
  Proof.
    induction 1 as [|c c' s s' Hc _ [IH IH']]; [split; constructor|].
    destruct (al_scalar _ _ _ HR _ _ Hc). split; constructor; assumption.
  Qed.
  Lemma Rs_bytes s s' : Rs s s' -> str_bytes s = str_bytes s'.
  Proof.
    induction 1 as [|c c' s s' Hc _ IH]; [reflexivity|].
    change (utf8_len c + str_bytes s = utf8_len c' + str_bytes s'). rewrite (al_len _ _ _ HR _ _ Hc), IH. reflexivity.
  Qed.
  Lemma Rs_rev s s' : Rs s s' -> Rs (rev s) (rev s').
  Proof.
    induction 1; cbn; [constructor|]. apply Rs_app; [assumption|]. constructor; [assumption|constructor].
  Qed.
  Lemma R_eqb c c' k : R c c' -> (k < 256)%N -> (c' =? k)%N = (c =? k)%N.
  Proof.
    intros H Hk. destruct (al_case _ _ _ HR _ _ H) as [<-|[H1 H2]]; [reflexivity|].
    destruct (N.eqb_spec c k), (N.eqb_spec c' k); lia.
  Qed.
  Lemma Rs_eqb a a' : Rs a a' -> forall b b', Rs b b' -> str_eqb a b = str_eqb a' b'.
  Proof.
    induction 1 as [|x x' a a' Hx Ha IH]; intros b b' Hb; destruct Hb as [|y y' b b' Hy Hb]; cbn; try reflexivity.
    rewrite (al_eq _ _ _ HR _ _ _ _ Hx Hy), (IH _ _ Hb). reflexivity.
  Qed.

  (** Nodes that carry no text are equal; the others carry alike texts. *)
  Definition plain (n : node) : Prop :=
    match n with NNamed _ _ | NLitOp _ _ | NStrLit _ _ _ _ => False | _ => True end.
  Inductive nrel : node -> node -> Prop :=
  | nr_plain n : plain n -> nrel n n
  | nr_named tp x y : Rs x y -> nrel (NNamed tp x) (NNamed tp y)
  | nr_litop tp x y : Rs x y -> nrel (NLitOp tp x) (NLitOp tp y)
  | nr_str q x y t k : Rs x y -> nrel (NStrLit q x t k) (NStrLit q y t k).
  Definition grel : store -> store -> Prop := Forall2 nrel.
  Lemma nrel_kind n n' k : nrel n n' -> hkind k n = hkind k n'.
  Proof. destruct 1; destruct k; reflexivity. Qed.

  Definition orel {A} (RA : A -> A -> Prop) (o o' : option A) : Prop :=
    match o, o' with Some a, Some b => RA a b | None, None => True | _, _ => False end.
  Lemma grel_nth sg sg' : grel sg sg' -> forall h, orel nrel (nth_error sg h) (nth_error sg' h).
  Proof. induction 1; intros [|h]; cbn; auto. Qed.
  Lemma grel_resolve sg sg' k h : grel sg sg' -> orel nrel (resolve sg k h) (resolve sg' k h).
  Proof.
    intros H. unfold resolve. pose proof (grel_nth _ _ H h) as Hn.
    destruct (nth_error sg h), (nth_error sg' h); cbn in Hn; try contradiction; [|exact I].
    rewrite <- (nrel_kind _ _ k Hn). destruct (hkind k n); cbn; auto.
  Qed.
  Lemma grel_upd sg sg' n n' : grel sg sg' -> nrel n n' -> forall h, grel (upd sg h n) (upd sg' h n').
  Proof. intros H Hn. induction H; intros [|h]; cbn; constructor; auto; apply IHForall2. Qed.

  (** ** Writers *)
  Definition brel (b b' : buf) : Prop := exists t t', b_bytes b = utf8 t /\ b_bytes b' = utf8 t' /\ Rs t t'.
  Definition relw (w w' : W) : Prop := forall b b', brel b b' ->
    snd (w b) = snd (w' b') /\ (snd (w b) = Ok tt -> brel (fst (w b)) (fst (w' b'))).

  Lemma brel_nil c c' : brel (mkBuf [] c) (mkBuf [] c').
  Proof. exists [], []. repeat split. constructor. Qed.
  Lemma brel_decode b b' : brel b b' -> exists t t', from_utf8 (b_bytes b) = Some t /\ from_utf8 (b_bytes b') = Some t' /\ Rs t t'.
  Proof.
    intros (t & t' & H1 & H2 & H). exists t, t'. destruct (Rs_scalar _ _ H) as [Hs Hs'].
    rewrite H1, H2, !from_utf8_utf8 by assumption. auto.
  Qed.
  Lemma brel_length b b' : brel b b' -> length (b_bytes b) = length (b_bytes b').
  Proof. intros (t & t' & -> & -> & H). rewrite !utf8_length. apply Rs_bytes. assumption. Qed.
  Lemma brel_last b b' : brel b b' -> orel R (last_char b) (last_char b').
  Proof.
    intros Hb. unfold last_char. destruct (brel_decode _ _ Hb) as (t & t' & -> & -> & H).
    apply Rs_rev in H. destruct H; cbn; auto.
  Qed.

  Lemma relw_ret : relw w_ret w_ret.
  Proof. intros b b' H. split; auto. Qed.
  Lemma relw_panic : relw w_panic w_panic.
  Proof. intros b b' H. split; [reflexivity|discriminate]. Qed.
  Lemma relw_fuel : relw w_fuel w_fuel.
  Proof. intros b b' H. split; [reflexivity|discriminate]. Qed.
  Lemma relw_seq m m' k k' : relw m m' -> relw k k' -> relw (m >> k) (m' >> k').
  Proof.
    intros Hm Hk b b' Hb. destruct (Hm b b' Hb) as [Heq Hbe]. unfold w_seq.
    destruct (m b) as [c r], (m' b') as [c' r']. cbn [fst snd] in *. subst r'.
    destruct r as [[]|e| |]; try (split; [reflexivity|discriminate]). apply Hk, Hbe. reflexivity.
  Qed.
  Lemma relw_if c m m' : (c = true -> relw m m') -> relw (w_if c m) (w_if c m').
  Proof. intros H. destruct c; [apply H; reflexivity|apply relw_ret]. Qed.
  Lemma relw_ite (c : bool) m m' k k' : (c = true -> relw m m') -> (c = false -> relw k k') ->
    relw (if c then m else k) (if c then m' else k').
  Proof. intros H1 H2. destruct c; auto. Qed.
  Lemma relw_opt {A} (o : option A) f f' : (forall a, relw (f a) (f' a)) -> relw (w_opt o f) (w_opt o f').
  Proof. intros H. destruct o; [apply H|apply relw_ret]. Qed.
  Lemma relw_str t t' : Rs t t' -> relw (w_str E t) (w_str E' t').
  Proof.
    intros Ht b b' Hb. unfold w_str. rewrite (brel_length _ _ Hb), !utf8_length, (Rs_bytes _ _ Ht).
    change (e_out E') with (e_out E).
    destruct Ht as [|c c' t t' Hc Ht]; [split; auto|]. destruct (_ <? _)%N; cbn [fst snd]; [|split; [reflexivity|discriminate]].
    split; [reflexivity|]. intros _. destruct Hb as (u & u' & H1 & H2 & Hu). exists (u ++ c :: t), (u' ++ c' :: t').
    cbn [b_bytes]. rewrite !utf8_app, H1, H2. split; [reflexivity|]. split; [reflexivity|].
    apply Rs_app; [assumption|]. constructor; assumption.
  Qed.
  Lemma relw_lit t : forallb (in_range 32 126) t = true -> relw (w_str E t) (w_str E' t).
  Proof. intros H. apply relw_str, Rs_lit, H. Qed.

  Lemma Rs_dec_N n : Rs (dec_N n) (dec_N n). Proof. apply Rs_print, dec_N_print. Qed.
  Lemma Rs_dec_Z n : Rs (dec_Z n) (dec_Z n). Proof. apply Rs_print, dec_Z_print. Qed.
  Ltac rs := repeat first [assumption | apply Rs_dec_N | apply Rs_dec_Z | apply Forall2_nil
    | apply Rs_lit; vm_compute; reflexivity | apply Rs_app
    | match goal with |- Rs (if ?c then _ else _) (if ?c then _ else _) => destruct c end ].

  Lemma relw_space : relw (space_if_necessary E) (space_if_necessary E').
  Proof.
    intros b b' Hb. unfold space_if_necessary. pose proof (brel_last _ _ Hb) as Hl.
    destruct (last_char b) as [c|], (last_char b') as [c'|]; cbn in Hl; try contradiction; [|apply relw_ret; assumption].
    assert (Ha : is_alphanumeric E c = is_alphanumeric E' c').
    { unfold is_alphanumeric. cbn [e_alnum envL envR]. destruct (al_case _ _ _ HR _ _ Hl) as [<-|[H1 H2]].
      - destruct (N.ltb_spec c 128); [reflexivity|]. apply (al_class _ _ _ HR); assumption.
      - destruct (N.ltb_spec c 128), (N.ltb_spec c' 128); try lia. apply (al_class _ _ _ HR); assumption. }
    rewrite Ha, (R_eqb c c' (ch ">") Hl) by reflexivity.
    destruct (_ || _); [|apply relw_ret; assumption]. apply relw_lit; [reflexivity|assumption].
  Qed.
  Lemma relw_restrict : relw (single_restrict E) (single_restrict E').
  Proof.
    unfold single_restrict. change (no_ms_keywords E') with (no_ms_keywords E).
    change (no_leading_underscores E') with (no_leading_underscores E).
    repeat (apply relw_ite; intros _); first [apply relw_ret|apply relw_lit; reflexivity].
  Qed.
  Lemma relw_if_present p m m' sb k k' : relw m m' -> (forall b, relw (k b) (k' b)) ->
    relw (if_present E p m sb k) (if_present E' p m' sb k').
  Proof.
    intros Hm Hk. unfold if_present. destruct p; [|apply Hk].
    apply relw_seq; [apply relw_if; intros; apply relw_lit; reflexivity|]. apply relw_seq; [assumption|apply Hk].
  Qed.
  Lemma relw_quals q sb sa : relw (out_quals E q sb sa) (out_quals E' q sb sa).
  Proof.
    unfold out_quals. destruct (q =? Q_None)%N; [apply relw_ret|]. intros b b' Hb.
    refine (relw_seq _ _ _ _ _ _ b b' Hb).
    - repeat (apply relw_if_present; [first [apply relw_lit; reflexivity|apply relw_restrict]|intros ?]). apply relw_ret.
    - intros c c' Hc. rewrite (brel_length _ _ Hb), (brel_length _ _ Hc).
      apply relw_if; [intros; apply relw_lit; reflexivity|assumption].
  Qed.
  Lemma relw_cc c : relw (out_cc E c) (out_cc E' c).
  Proof.
    unfold out_cc. apply relw_seq; [apply relw_space|]. change (no_leading_underscores E') with (no_leading_underscores E).
    apply relw_lit. destruct c; cbn; destruct (no_leading_underscores E); vm_compute; reflexivity.
  Qed.

  Section Node.
    Variables sg sg' : store.
    Hypothesis Hsg : grel sg sg'.
    Variables rec rec' : omode -> kind -> handle -> W.
    Hypothesis Hrec : forall m k h, relw (rec m k h) (rec' m k h).

    Ltac flags :=
      change (name_only E') with (name_only E); change (no_ms_keywords E') with (no_ms_keywords E);
      change (no_leading_underscores E') with (no_leading_underscores E);
      change (no_calling_convention E') with (no_calling_convention E);
      change (no_tag_specifier E') with (no_tag_specifier E);
      change (no_access_specifier E') with (no_access_specifier E);
      change (no_member_type E') with (no_member_type E);
      change (no_return_type E') with (no_return_type E);
      change (no_variable_type E') with (no_variable_type E);
      change (no_this_type E') with (no_this_type E).
    Ltac rw1 :=
      match goal with
      | |- relw w_ret w_ret => apply relw_ret
      | |- relw w_panic w_panic => apply relw_panic
      | |- relw (w_str E _) (w_str E' _) => apply relw_str; solve [rs]
      | |- relw (put E _) (put E' _) => apply relw_str; solve [rs]
      | |- relw (rec _ _ _) (rec' _ _ _) => apply Hrec
      | |- relw (space_if_necessary E) (space_if_necessary E') => apply relw_space
      | |- relw (out_quals E _ _ _) (out_quals E' _ _ _) => apply relw_quals
      | |- relw (out_cc E _) (out_cc E' _) => apply relw_cc
      | |- relw (w_seq _ _) (w_seq _ _) => apply relw_seq
      | |- relw (w_if ?c _) (w_if ?c _) => apply relw_if; intros ?
      | |- relw (if ?c then _ else _) (if ?c then _ else _) => apply relw_ite; intros ?
      | |- relw (w_opt ?o _) (w_opt ?o _) => apply relw_opt; intros ?
      | |- relw (match ?x with _ => _ end) (match ?x with _ => _ end) => destruct x
      end.
    Ltac rw := repeat rw1.

    Lemma relw_variadic :
      relw (fun b => match last_char b with Some c => w_if (negb (c =? ch "(")%N) (put E (L ", ")) b | None => w_ret b end)
           (fun b => match last_char b with Some c => w_if (negb (c =? ch "(")%N) (put E' (L ", ")) b | None => w_ret b end).
    Proof.
      intros b b' Hb. pose proof (brel_last _ _ Hb) as Hl.
      destruct (last_char b) as [c|], (last_char b') as [c'|]; cbn in Hl; try contradiction; [|apply relw_ret; assumption].
      rewrite (R_eqb c c' (ch "(") Hl) by reflexivity. apply relw_if; [intros; apply relw_lit; reflexivity|assumption].
    Qed.
    Lemma relw_fsig_pre f p : relw (fsig_pre E rec f p) (fsig_pre E' rec' f p).
    Proof. unfold fsig_pre. flags. rw. Qed.
    Lemma relw_fsig_post f p : relw (fsig_post E rec f p) (fsig_post E' rec' f p).
    Proof. unfold fsig_post. flags. rw. apply relw_variadic. Qed.
    Lemma relw_thunk_pre f p : relw (thunk_pre E rec f p) (thunk_pre E' rec' f p).
    Proof. unfold thunk_pre. flags. apply relw_seq; [rw|apply relw_fsig_pre]. Qed.
    Lemma relw_thunk_post f ta p : relw (thunk_post E rec f ta p) (thunk_post E' rec' f ta p).
    Proof. unfold thunk_post. apply relw_seq; [rw|apply relw_fsig_post]. Qed.
    Lemma relw_sig_pre n p : relw (sig_pre E rec n p) (sig_pre E' rec' n p).
    Proof. destruct n; cbn [sig_pre]; first [apply relw_panic|apply relw_fsig_pre|apply relw_thunk_pre]. Qed.
    Lemma relw_sig_post n p : relw (sig_post E rec n p) (sig_post E' rec' n p).
    Proof. destruct n; cbn [sig_post]; first [apply relw_panic|apply relw_fsig_post|apply relw_thunk_post]. Qed.

    (** A type node is plain: both sides resolve to the same node. *)
    Lemma resolve_plain k h (F F' : node -> W) : (forall n, plain n -> relw (F n) (F' n)) ->
      (forall n, hkind k n = true -> plain n) ->
      relw (match resolve sg k h with None => w_panic | Some n => F n end)
           (match resolve sg' k h with None => w_panic | Some n => F' n end).
    Proof.
      intros HF Hk. pose proof (grel_resolve _ _ k h Hsg) as H.
      destruct (resolve sg k h) as [n|] eqn:Hn, (resolve sg' k h) as [n'|]; cbn in H; try contradiction; [|apply relw_panic].
      assert (Hp : plain n).
      { unfold resolve in Hn. destruct (nth_error sg h) as [m|]; [|discriminate].
        destruct (hkind k m) eqn:Hm; [|discriminate]. injection Hn as <-. apply Hk. assumption. }
      destruct H; try contradiction. apply HF. assumption.
    Qed.
    Lemma type_plain n : hkind KType n = true -> plain n.
    Proof. destruct n; cbn; try discriminate; auto. Qed.
    Lemma relw_ptr_pre q a cls p : relw (ptr_pre E sg rec q a cls p) (ptr_pre E' sg' rec' q a cls p).
    Proof.
      unfold ptr_pre. apply resolve_plain; [|apply type_plain]. intros n _. flags.
      apply relw_seq; [apply relw_ite; intros _; [apply relw_sig_pre|apply Hrec]|]. rw.
    Qed.
    Lemma relw_ptr_post p : relw (ptr_post E sg rec p) (ptr_post E' sg' rec' p).
    Proof.
      unfold ptr_post. apply resolve_plain; [|apply type_plain]. intros n _. apply relw_seq; [rw|].
      apply relw_ite; intros _; [apply relw_sig_post|apply Hrec].
    Qed.
    Lemma relw_one_dim h : relw (one_dim E sg h) (one_dim E' sg' h).
    Proof.
      unfold one_dim, int_out. pose proof (grel_resolve _ _ KAny h Hsg) as H.
      destruct (resolve sg KAny h) as [n|], (resolve sg' KAny h) as [n'|]; cbn in H; try contradiction; [|apply relw_panic].
      destruct H; try apply relw_panic. destruct n; rw.
    Qed.
    Lemma relw_rest_dims l : relw (rest_dims E sg l) (rest_dims E' sg' l).
    Proof.
      induction l; cbn [rest_dims]; [rw|]. apply relw_seq; [rw|]. apply relw_seq; [apply relw_one_dim|assumption].
    Qed.
    Lemma nodes_resolve h (F F' : list handle -> W) : (forall l, relw (F l) (F' l)) ->
      relw (match resolve sg KNodes h with Some (NNodes l) => F l | _ => w_panic end)
           (match resolve sg' KNodes h with Some (NNodes l) => F' l | _ => w_panic end).
    Proof.
      intros HF. pose proof (grel_resolve _ _ KNodes h Hsg) as H.
      destruct (resolve sg KNodes h) as [n|], (resolve sg' KNodes h) as [n'|]; cbn in H; try contradiction; [|apply relw_panic].
      destruct H; try apply relw_panic. destruct n; try apply relw_panic. apply HF.
    Qed.
    Lemma relw_dims d : relw (out_dims E sg d) (out_dims E' sg' d).
    Proof.
      unfold out_dims. apply nodes_resolve. intros [|h l]; [rw|]. apply relw_seq; [apply relw_one_dim|apply relw_rest_dims].
    Qed.
    Lemma relw_tp tp : relw (out_tp E rec tp) (out_tp E' rec' tp).
    Proof. unfold out_tp. rw. Qed.
    Lemma relw_nodes sep l : Rs sep sep -> relw (out_nodes E rec sep l) (out_nodes E' rec' sep l).
    Proof.
      intros Hsep. assert (Hr : forall l, relw (rest_nodes E rec sep l) (rest_nodes E' rec' sep l)).
      { clear l. induction l; cbn [rest_nodes]; rw. assumption. }
      destruct l; cbn [out_nodes]; [rw|]. apply relw_seq; [rw|apply Hr].
    Qed.
    Lemma relw_pre n n' : nrel n n' -> relw (out_pre E sg rec n) (out_pre E' sg' rec' n').
    Proof.
      intros [m _|tp x y _|tp x y _|q x y t k _]; try apply relw_panic.
      destruct m; cbn [out_pre]; try apply relw_panic; flags;
        first [apply relw_fsig_pre|apply relw_thunk_pre|apply relw_ptr_pre|rw].
      - apply relw_lit. destruct k; vm_compute; reflexivity.
      - apply relw_lit. destruct t; vm_compute; reflexivity.
    Qed.
    Lemma relw_post n n' : nrel n n' -> relw (out_post E sg rec n) (out_post E' sg' rec' n').
    Proof.
      intros [m _|tp x y _|tp x y _|q x y t k _]; try apply relw_panic.
      destruct m; cbn [out_post]; try apply relw_panic;
        first [apply relw_fsig_post|apply relw_thunk_post|apply relw_ptr_post|idtac]; try solve [rw].
      apply relw_seq; [rw|]. apply relw_seq; [apply relw_dims|rw].
    Qed.
    Lemma relw_var name sc ty : relw (var_out E rec name sc ty) (var_out E' rec' name sc ty).
    Proof. unfold var_out. flags. destruct sc as [[]|]; destruct name as [[h|]|]; cbv zeta; cbn [w_opt]; rw. Qed.
    Lemma relw_tpr sym offs a : relw (tpr_out E rec sym offs a) (tpr_out E' rec' sym offs a).
    Proof.
      unfold tpr_out. apply relw_seq; [rw|]. apply relw_seq; [rw|]. destruct offs as [|z zs]; [rw|].
      apply relw_seq; [rw|]. induction zs; cbn [fold_right]; [rw|]. apply relw_seq; [rw|assumption].
    Qed.
    Lemma relw_full n n' : nrel n n' -> relw (out_full E sg rec n) (out_full E' sg' rec' n').
    Proof.
      intros Hn. pose proof (relw_pre n n' Hn) as Hpre. pose proof (relw_post n n' Hn) as Hpost.
      destruct Hn as [m Hp|tp x y Hx|tp x y Hx|q x y t k Hx].
      - destruct m; cbn [plain] in Hp; try contradiction; cbn [out_full]; flags;
          try (apply relw_seq; [exact Hpre|exact Hpost]); clear Hpre Hpost;
          try apply relw_var; try apply relw_tpr; unfold int_out; try solve [rw].
        + apply relw_seq; [|apply relw_tp]. apply relw_opt. intros o. apply relw_lit. destruct o; vm_compute; reflexivity.
        + apply relw_seq; [rw|]. apply relw_seq; [apply relw_tp|rw].
        + apply relw_seq; [rw|]. apply relw_seq; [rw|apply relw_tp].
        + apply relw_nodes. rs.
        + apply nodes_resolve. intros l. apply relw_nodes. rs.
      - cbn [out_full]. apply relw_seq; [apply relw_str; assumption|apply relw_tp].
      - cbn [out_full]. apply relw_seq; [apply relw_str; rs|apply relw_tp].
      - cbn [out_full]. unfold strlit_out. apply relw_str. apply Rs_app; [destruct k; rs|]. rs.
    Qed.
    Lemma relw_node m n n' : nrel n n' -> relw (out_node E sg rec m n) (out_node E' sg' rec' m n').
    Proof. intros H. destruct m; cbn [out_node]; [apply relw_full|apply relw_pre|apply relw_post]; assumption. Qed.
  End Node.

  Lemma relw_out sg sg' : grel sg sg' -> forall fuel m k h, relw (out fuel E sg m k h) (out fuel E' sg' m k h).
  Proof.
    intros Hsg. induction fuel as [|fuel IH]; intros m k h; cbn [out]; [apply relw_fuel|].
    pose proof (grel_resolve _ _ k h Hsg) as H.
    destruct (resolve sg k h), (resolve sg' k h); cbn in H; try contradiction; [|apply relw_panic].
    apply relw_node; assumption.
  Qed.
  Lemma relw_output sg sg' k h : grel sg sg' -> relw (output E sg k h) (output E' sg' k h).
  Proof. intros H. unfold output. rewrite (F2_length _ _ _ H). apply relw_out. assumption. Qed.
End Alike.
