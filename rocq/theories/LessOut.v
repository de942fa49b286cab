(** The sweep over the printer for Less.v: every node kind.  Proof infrastructure. *)
From Verif Require Import Parser Utf8 Lex Show Emit Wf Less.

(** ** Related stores *)
Definition is_desc (n : node) : bool := match n with NVar (Some VTypeDescriptor) _ _ | NTpr _ _ _ _ => true | _ => false end.
Definition is_var (n : node) : bool := match n with NVar _ _ _ => true | _ => false end.
Definition name_rel (a a' : str) : Prop := ustr a /\ ustr a' /\ deletes a' a /\ lastc a = lastc a'.
Definition strs_ok (n : node) : Prop := match n with NNamed _ s | NLitOp _ s | NStrLit _ s _ _ => ustr s | _ => True end.
Definition nrel (n n' : node) : Prop :=
  match n, n' with
  | NNamed tp a, NNamed tp' a' => tp = tp' /\ name_rel a a'
  | _, _ => n = n' /\ strs_ok n
  end.
Definition srel (sg sg' : store) : Prop := Forall2 nrel sg sg'.

Lemma nrel_refl n : strs_ok n -> nrel n n.
Proof. destruct n; cbn; intros H; try (split; [reflexivity|exact I]); try (split; [reflexivity|exact H]).
  split; [reflexivity|]. repeat split; try assumption. apply del_refl.
Qed.
Lemma nrel_hkind k n n' : nrel n n' -> hkind k n = hkind k n'.
Proof. destruct n, n'; cbn; intros [H _]; try discriminate H; try (injection H; intros; subst; reflexivity); destruct k; reflexivity. Qed.
Lemma nrel_strs n n' : nrel n n' -> strs_ok n.
Proof. destruct n, n'; cbn; intros H; try exact I; try (destruct H as [H _]; discriminate H); apply H. Qed.
Lemma srel_nth sg sg' h n : srel sg sg' -> nth_error sg h = Some n -> exists n', nth_error sg' h = Some n' /\ nrel n n'.
Proof.
  intros H. revert h. induction H as [|a a' l l' Ha Hl IH]; intros [|h] Hn; cbn in *; try discriminate; eauto.
  injection Hn as <-. eauto.
Qed.
Lemma srel_len sg sg' : srel sg sg' -> length sg = length sg'.
Proof. induction 1; cbn; congruence. Qed.
Lemma srel_resolve sg sg' k h n : srel sg sg' -> resolve sg k h = Some n -> exists n', resolve sg' k h = Some n' /\ nrel n n'.
Proof.
  intros HR H. unfold resolve in *. destruct (nth_error sg h) as [m|] eqn:Hm; [|discriminate].
  destruct (hkind k m) eqn:Hk; [|discriminate]. injection H as ->. destruct (srel_nth _ _ _ _ HR Hm) as (n' & -> & Hr).
  rewrite <- (nrel_hkind k _ _ Hr), Hk. eauto.
Qed.
Lemma resolve_nth sg k h n : resolve sg k h = Some n -> nth_error sg h = Some n.
Proof. unfold resolve. destruct (nth_error sg h) as [m|]; [|discriminate]. destruct (hkind k m); [|discriminate]. auto. Qed.

Definition named (sg : store) (h : handle) : Prop := exists tp x, nth_error sg h = Some (NNamed tp x).
Definition plain (sg : store) (q : handle) : Prop := exists c l,
  nth_error sg q = Some (NQual c) /\ nth_error sg c = Some (NNodes l) /\ Forall (named sg) l.
(** The names of classes and custom types are lists of plain names. *)
Definition notvar (sg : store) (h : handle) : Prop := exists n, nth_error sg h = Some n /\ is_var n = false.
Definition tag_ok (sg : store) (n : node) : Prop :=
  match n with NTag _ q _ => plain sg q | NCustom _ i => named sg i | NNodes l => Forall (notvar sg) l | _ => True end.
Definition typed (k : kind) : bool := match k with KAny | KSym | KVar => false | _ => true end.

Lemma ustr_b s : forallb scalar s = true -> ustr s.
Proof. intros H. apply Forall_forall. intros c Hc. rewrite forallb_forall in H. auto. Qed.
Ltac us := repeat first [apply ustr_app|apply ustr_dec|apply ustr_decZ|assumption|apply ustr_b; reflexivity].

Definition imp (c' c : bool) : Prop := c' = true -> c = true.
Lemma imp_refl c : imp c c. Proof. intros H; exact H. Qed.
Lemma imp_and a b a' b' : imp a' a -> imp b' b -> imp (a' && b') (a && b).
Proof. unfold imp. destruct a', b'; cbn; intros H1 H2 H; try discriminate. rewrite H1, H2 by reflexivity. reflexivity. Qed.
Lemma imp_or a b a' b' : imp a' a -> imp b' b -> imp (a' || b') (a || b).
Proof. unfold imp. destruct a', b'; cbn; intros H1 H2 H; try discriminate; rewrite ?H1, ?H2 by reflexivity; rewrite ?orb_true_r; reflexivity. Qed.
Lemma imp_neg a a' : (a = true -> a' = true) -> imp (negb a') (negb a).
Proof. unfold imp. destruct a, a'; cbn; intros H H1; try reflexivity; try discriminate. discriminate (H eq_refl). Qed.

Section LessOut.
  Variables E E' : env.
  Hypothesis V : less E E'.
  Variable kap : Prop.
  Notation J := (J E kap).
  Notation Q := (Q E kap).
  Notation S0 := (S0 E).
  Notation C := (C E kap).
  Notation onew := (onew E).
  Notation rem := (rem E).

  Ltac im := repeat first [apply imp_refl|apply imp_and|apply imp_or|
    apply imp_neg; first [exact (le_name _ _ V)|exact (le_ret _ _ V)|exact (le_ms _ _ V)|exact (le_under _ _ V)|
      exact (le_cc _ _ V)|exact (le_acc _ _ V)|exact (le_mem _ _ V)|exact (le_tag _ _ V)|exact (le_var _ _ V)|exact (le_this _ _ V)]].

  (** ** Texts that may be deleted *)
  Lemma onew_rem_app m k : onew rem m -> onew rem k -> onew rem (m >> k).
  Proof. apply onew_seq, rem_app. Qed.
  Lemma onew_rem0_app m k : onew rem0 m -> onew rem0 k -> onew rem0 (m >> k).
  Proof. apply onew_seq, rem0_app. Qed.
  Lemma onew_any_app m k : onew any m -> onew any k -> onew any (m >> k).
  Proof. apply onew_seq. intros; exact I. Qed.
  Definition ends0 (t : str) : Prop := t <> [] /\ rem0 t.
  Lemma onew_ends m k : onew any m -> onew ends0 k -> onew ends0 (m >> k).
  Proof.
    apply onew_seq. intros a b _ [H1 H2]. split; [intros H; apply app_eq_nil in H; tauto|]. apply rem0_end; assumption.
  Qed.
  Lemma onew_rem_sp m : onew any m -> onew rem (m >> put E (L " ")).
  Proof.
    intros H. eapply (onew_seq E any (fun t => t = L " ")); [|exact H|apply onew_put; [us|reflexivity]].
    intros a b _ ->. apply rem_end.
  Qed.
  (** A literal that may go: it ends in a letter, or has a space in it. *)
  Definition remb (s : str) : bool :=
    match rev s with
    | [] => true
    | c :: _ => negb (c =? ch "(")%N && (((c <? 128)%N && is_ascii_alnum c) || existsb (fun x => (x =? ch " ")%N) s)
    end.
  Lemma remb_ok s : remb s = true -> rem s.
  Proof.
    unfold remb. destruct (rev s) as [|c r] eqn:Hr.
    - intros _. left. rewrite <- (rev_involutive s), Hr. reflexivity.
    - intros H. apply andb_prop in H. destruct H as [H1 H2]. right. unfold lastc. rewrite Hr. split.
      + intros Hc. injection Hc as ->. discriminate H1.
      + apply orb_prop in H2. destruct H2 as [H2|H2].
        * left. unfold word, ends_word. rewrite Hr. apply andb_prop in H2. destruct H2 as [Hc H2]. unfold is_alphanumeric. rewrite Hc, H2. reflexivity.
        * right. apply existsb_exists in H2. destruct H2 as (x & Hx & He). apply N.eqb_eq in He. subst x. assumption.
  Qed.
  Lemma onew_rem_put s : ustr s -> remb s = true -> onew rem (put E s).
  Proof. intros Hu H. apply onew_put; [assumption|apply remb_ok; assumption]. Qed.
  Lemma onew_rem_if c m : (c = true -> onew rem m) -> onew rem (w_if c m).
  Proof. apply onew_if. left; reflexivity. Qed.

  (** ** Qualifiers *)
  Lemma onew_restrict : onew rem (single_restrict E).
  Proof. unfold single_restrict. destruct (no_ms_keywords E); [apply onew_ret; left; reflexivity|]. destruct (no_leading_underscores E); apply onew_rem_put; reflexivity || us. Qed.
  Lemma sim_restrict : simw J J (single_restrict E) (single_restrict E').
  Proof.
    destruct (no_ms_keywords E') eqn:H'.
    - replace (single_restrict E') with w_ret by (unfold single_restrict; rewrite H'; reflexivity). apply sim_drop, onew_restrict.
    - unfold single_restrict. rewrite H'. assert (H : no_ms_keywords E = false).
      { destruct (no_ms_keywords E) eqn:H; [|reflexivity]. rewrite (le_ms _ _ V H) in H'. discriminate. }
      rewrite H. refine (simw_weak _ _ _ _ _ _ (J_S E kap) (fun _ _ h => h) _). 
      destruct (no_leading_underscores E) eqn:U, (no_leading_underscores E') eqn:U'; try (rewrite (le_under _ _ V U) in U'; discriminate);
        apply (sim_put2 E E' V); try (apply delb_ok; reflexivity); try discriminate; try reflexivity; us.
  Qed.

  Lemma sim_if_present p m m' sb k k' : simw J J m m' -> (forall b, simw J J (k b) (k' b)) ->
    simw J J (if_present E p m sb k) (if_present E' p m' sb k').
  Proof.
    intros Hm Hk. unfold if_present. destruct p; [|apply Hk]. eapply simw_seq; [apply sim_if; intros _; apply (sim_put E E' V); us|].
    eapply simw_seq; [exact Hm|apply Hk].
  Qed.
  Lemma sim_quals q sb : simw J J (out_quals E q sb false) (out_quals E' q sb false).
  Proof.
    unfold out_quals. destruct (q =? Q_None)%N; [apply simw_ret|].
    match goal with |- simw _ _ (fun b0 => (?m >> _) b0) (fun b0 => (?m' >> _) b0) => change (simw J J (m >> w_ret) (m' >> w_ret)) end.
    eapply simw_seq; [|apply simw_ret]. repeat (apply sim_if_present; [first [apply sim_restrict|apply (sim_put E E' V); us]|intros ?]). apply simw_ret.
  Qed.
  Lemma quals_nonempty q : quals_alone E q = [] -> quals_alone E' q = [].
  Proof.
    unfold quals_alone, qual_words. destruct (contains q Q_Const), (contains q Q_Volatile), (contains q Q_Restrict); cbn [app join]; try discriminate; auto.
    destruct (no_ms_keywords E) eqn:H; [rewrite (le_ms _ _ V H); auto|]. cbn [negb opt]. unfold kw. destruct (no_leading_underscores E); discriminate.
  Qed.
  Lemma quals_before_del q : quals_before E' q = [] \/ (quals_before E' q <> [] /\ deletes (quals_before E' q) (quals_before E q) /\ lastc (quals_before E q) = lastc (quals_before E' q)).
  Proof.
    unfold quals_before. destruct (quals_alone E' q) as [|c' r'] eqn:Hq'; [left; reflexivity|]. right.
    destruct (quals_alone E q) as [|c r] eqn:Hq; [apply quals_nonempty in Hq; congruence|]. cbn [opt].
    split; [discriminate|]. split; [|rewrite !lastc_app; reflexivity]. apply del_app; [|apply del_refl].
    rewrite <- Hq, <- Hq'. unfold quals_alone, qual_words. clear Hq Hq' c c' r r'.
    destruct (contains q Q_Const), (contains q Q_Volatile), (contains q Q_Restrict); cbn [app join]; try (apply delb_ok; reflexivity);
      repeat apply del_app; try apply del_refl;
      (destruct (no_ms_keywords E) eqn:H; [rewrite (le_ms _ _ V H); apply del_refl|];
       destruct (no_ms_keywords E'); [apply del_empty|]; unfold kw;
       destruct (no_leading_underscores E) eqn:U; [rewrite (le_under _ _ V U)|destruct (no_leading_underscores E')]; cbn [negb opt app]; apply delb_ok; reflexivity).
  Qed.

  Lemma onew_present p m sb k : onew any m -> (forall b, onew any (k b)) -> onew any (if_present E p m sb k).
  Proof.
    intros Hm Hk. unfold if_present. destruct p; [|apply Hk]. apply onew_any_app; [apply onew_if; [exact I|]; intros _; apply onew_put; [us|exact I]|].
    apply onew_any_app; [exact Hm|apply Hk].
  Qed.
  Lemma onew_quals q sb sa : onew any (out_quals E q sb sa).
  Proof.
    unfold out_quals. destruct (q =? Q_None)%N; [apply onew_ret; exact I|]. intros b x Hb Hl b1 Hw.
    refine (onew_any_app _ _ _ _ b x Hb Hl b1 Hw).
    - repeat (apply onew_present; [first [eapply onew_weak; [|apply onew_restrict]; intros; exact I|apply onew_put; [us|exact I]]|intros ?]). apply onew_ret; exact I.
    - intros c y Hc Hy b2 Hw2. refine (onew_if E any _ _ I _ c y Hc Hy b2 Hw2). intros _. apply onew_put; [us|exact I].
  Qed.
  Lemma quals_text q sb b x b1 : good b x -> (N.of_nat (str_bytes x) < e_out E)%N -> out_quals E q sb true b = (b1, Ok tt) -> sb = false ->
    good b1 (x ++ quals_before E q) /\ (N.of_nat (str_bytes (x ++ quals_before E q)) < e_out E)%N.
  Proof.
    intros Hb Hl Hw ->. destruct (onew_quals q false true b x Hb Hl b1 Hw) as (t & H1 & _ & H3).
    destruct (quals_before_prints E q x b Hb) as [(b2 & H4 & H5 & _)|(b2 & H4 & _)]; [|congruence].
    assert (b2 = b1) by congruence. subst b2. split; [assumption|]. rewrite <- utf8_length in *. rewrite <- (proj1 H5), (proj1 H1). assumption.
  Qed.
  Lemma onew_quals_before q : onew rem (out_quals E q false true).
  Proof.
    intros b x Hb Hl b1 Hw. destruct (quals_text q false b x b1 Hb Hl Hw eq_refl) as [H1 H2]. exists (quals_before E q).
    split; [assumption|]. split; [|assumption]. unfold quals_before. destruct (quals_alone E q); [left; reflexivity|apply rem_end].
  Qed.
  Lemma sim_quals_before q : simw J J (out_quals E q false true) (out_quals E' q false true).
  Proof.
    intros b b' x x' Hb Hb' Hx b1 Hw. pose proof (proj2 (proj1 Hx)) as Hl.
    destruct (quals_text q false b x b1 Hb Hl Hw eq_refl) as [H1 H2].
    assert (HJ : J (x ++ quals_before E q) (x' ++ quals_before E' q)).
    { destruct (quals_before_del q) as [->|(H3 & H4 & H5)].
      - rewrite app_nil_r. destruct (sim_drop E kap _ (onew_quals_before q) b b' x x' Hb Hb' Hx b1 Hw) as (c & y & y' & Hc & G1 & G2 & G3).
        injection Hc as <-. assert (y = x ++ quals_before E q).
        { destruct H1 as [H1 U1], G1 as [G1 U2]. rewrite G1 in H1. apply (f_equal from_utf8) in H1. rewrite !from_utf8_utf8 in H1 by assumption. congruence. }
        assert (y' = x').
        { destruct Hb' as [H6 U1], G2 as [G4 U2]. rewrite G4 in H6. apply (f_equal from_utf8) in H6. rewrite !from_utf8_utf8 in H6 by assumption. congruence. }
        subst. assumption.
      - apply S_put2; [apply Hx|assumption|assumption|assumption|assumption]. }
    destruct (quals_before_prints E' q x' b' Hb') as [(b2 & H4 & H5 & _)|(b2 & H4 & H5)].
    - exists b2, (x ++ quals_before E q), (x' ++ quals_before E' q). auto.
    - exfalso. pose proof (del_bytes _ _ (proj1 (proj1 HJ))). rewrite utf8_length, <- (le_out _ _ V) in H5. lia.
  Qed.
  Lemma onew_cc c : onew rem (out_cc E c).
  Proof.
    unfold out_cc. apply onew_rem_app; [apply onew_space; [left; reflexivity|exact (rem_end E [])]|].
    apply onew_rem_put; destruct (no_leading_underscores E), c; us; reflexivity.
  Qed.
  Lemma sim_cc c : simw J J (out_cc E c) (out_cc E' c).
  Proof.
    unfold out_cc. eapply simw_seq; [apply sim_space; exact V|]. refine (simw_weak _ _ _ _ _ _ (J_S E kap) (fun _ _ h => h) _).
    destruct (no_leading_underscores E) eqn:U, (no_leading_underscores E') eqn:U'; try (rewrite (le_under _ _ V U) in U'; discriminate);
      apply (sim_put2 E E' V); destruct c; try (apply delb_ok; reflexivity); try discriminate; try reflexivity; us.
  Qed.

  (** ** Nodes *)
  Section Node.
    Variables sg sg' : store.
    Variable G : handle -> Prop.
    Variables rec rec' : omode -> kind -> handle -> W.
    Hypothesis HR : srel sg sg'.
    Hypothesis HG : forall h n, G h -> nth_error sg h = Some n ->
      (forall x c, In (x, c) (kids n) -> G c) /\ is_desc n = false /\ tag_ok sg n.
    Hypothesis Hone : forall m k h, G h -> onew any (rec m k h).
    Hypothesis Honep : forall k h, G h -> onew rem0 (rec OPost k h).
    Hypothesis Hpre : forall kap k h, G h -> simw (Less.C E kap) (Less.J E kap) (rec OPre k h) (rec' OPre k h).
    Hypothesis Hfull : forall kap k h, G h -> typed k = true -> simw (Less.C E kap) (Less.Q E kap) (rec OFull k h) (rec' OFull k h).
    Hypothesis Hany : forall kap k h, G h -> notvar sg h -> simw (Less.C E kap) (Less.Q E kap) (rec OFull k h) (rec' OFull k h).
    Hypothesis Hvar : forall kap k h, G h -> simw (Less.C E kap) S0 (rec OFull k h) (rec' OFull k h).
    Hypothesis Hpost : forall kap k h, G h -> simw (Less.Q E kap) (Less.Q E kap) (rec OPost k h) (rec' OPost k h).
    Hypothesis Hnamed : forall kap k h, G h -> named sg h -> simw (Less.C E kap) (Less.J E kap) (rec OFull k h) (rec' OFull k h).
    Hypothesis Hplain : forall kap h, G h -> plain sg h -> simw (Less.C E kap) (Less.J E kap) (rec OFull KQual h) (rec' OFull KQual h).

    Ltac ow1 :=
      match goal with
      | |- Less.onew _ any (_ >> _) => apply onew_any_app
      | |- Less.onew _ any (put _ _) => apply onew_put; [|exact I]
      | |- Less.onew _ any (w_str _ _) => apply onew_put; [|exact I]
      | |- Less.onew _ any w_ret => apply onew_ret; exact I
      | |- Less.onew _ any w_panic => apply onew_panic
      | |- Less.onew _ any (w_if _ _) => apply onew_if; [exact I|intros ?]
      | |- Less.onew _ any (w_opt _ _) => apply onew_opt; [exact I|intros ? ?]
      | |- Less.onew _ any (space_if_necessary _) => apply onew_space; exact I
      | |- Less.onew _ any (out_quals _ _ _ _) => apply onew_quals
      | |- Less.onew _ any (out_cc _ _) => eapply onew_weak; [|apply onew_cc]; intros; exact I
      | |- Less.onew _ any (if _ then _ else _) => apply onew_ite; intros ?
      | |- Less.onew _ any (rec _ _ _) => apply Hone
      end.
    Ltac ow := repeat ow1.

    Definition sig_kids (f : fsig) : Prop := (forall h, fs_ret f = Some h -> G h) /\ (forall h, fs_params f = Some h -> G h).
    Lemma sig_kids_of f : (forall x c, In (x, c) (fsig_kids f) -> G c) -> sig_kids f.
    Proof.
      intros H. unfold fsig_kids in H. split; intros h Hh; rewrite Hh in H.
      - eapply H. apply in_or_app. left. left. reflexivity.
      - eapply H. apply in_or_app. right. left. reflexivity.
    Qed.

    Lemma one_fsig_pre f p : sig_kids f -> onew any (fsig_pre E rec f p).
    Proof. intros [H1 H2]. unfold fsig_pre. ow; try us. apply H1; assumption. Qed.
    Lemma onew_variadic : onew any (fun b => match last_char b with Some c => w_if (negb (c =? ch "(")%N) (put E (L ", ")) b | None => w_ret b end).
    Proof.
      intros b x Hb Hl b1 Hw. destruct (last_char b) as [c|]; [|exact (onew_ret E any I b x Hb Hl b1 Hw)].
      refine (onew_if E any (negb (c =? ch "(")%N) (put E (L ", ")) I (fun _ => _) b x Hb Hl b1 Hw). ow. us.
    Qed.
    Lemma onew_end0 s : s <> [] -> ustr s -> lastc s <> Some (ch "(") -> onew ends0 (put E s).
    Proof. intros. apply onew_put; [assumption|]. split; assumption. Qed.
    Lemma ends_rem0 w : onew ends0 w -> onew rem0 w.
    Proof. apply onew_weak. intros t [_ H]. exact H. Qed.
    Lemma rem0_put s : ustr s -> lastc s <> Some (ch "(") -> onew rem0 (put E s).
    Proof. intros. apply onew_put; assumption. Qed.
    Lemma rem0_if c w : (c = true -> onew rem0 w) -> onew rem0 (w_if c w).
    Proof. apply onew_if. discriminate. Qed.
    Ltac r0 :=
      repeat match goal with
      | |- Less.onew _ rem0 (_ >> _) => apply onew_rem0_app
      | |- Less.onew _ rem0 (put _ _) => apply rem0_put; [us|discriminate]
      | |- Less.onew _ rem0 (w_if _ _) => apply rem0_if; intros ?
      | |- Less.onew _ rem0 w_ret => apply onew_ret; discriminate
      | |- Less.onew _ rem0 w_panic => apply onew_panic
      | |- Less.onew _ rem0 (w_opt _ _) => apply onew_opt; [discriminate|intros ? ?]
      | |- Less.onew _ rem0 (if _ then _ else _) => apply onew_ite; intros ?
      end.
    Lemma one_fsig_post f p : sig_kids f -> onew rem0 (fsig_post E rec f p).
    Proof.
      intros [H1 H2]. unfold fsig_post. apply onew_rem0_app.
      { apply rem0_if; intros _. apply ends_rem0. apply onew_ends; [ow; us|]. apply onew_ends.
        { destruct (fs_params f) as [h|] eqn:Hp; ow; [apply H2; reflexivity|us]. }
        apply onew_ends; [|apply onew_end0; [discriminate|us|discriminate]]. ow; [|us]. apply onew_variadic. }
      r0. { destruct a; r0. } apply Honep, H1; assumption.
    Qed.
    Lemma rem0_any w : onew rem0 w -> onew any w.
    Proof. apply onew_weak. intros; exact I. Qed.
    Lemma rem_rem0w w : onew rem w -> onew rem0 w.
    Proof. apply onew_weak. exact (rem_rem0 E). Qed.
    Lemma one_thunk_pre f p : sig_kids f -> onew any (thunk_pre E rec f p).
    Proof. intros H. unfold thunk_pre. ow; [us|]. apply one_fsig_pre; assumption. Qed.
    Lemma lastc_end (a : str) c : lastc (a ++ [c]) = Some c.
    Proof. rewrite lastc_app. reflexivity. Qed.
    Lemma one_thunk_post f ta p : sig_kids f -> onew rem0 (thunk_post E rec f ta p).
    Proof.
      intros H. unfold thunk_post. apply onew_rem0_app; [|apply one_fsig_post; assumption].
      repeat (apply onew_ite; intros _); try (apply onew_ret; discriminate);
        (apply rem0_put; [us|rewrite !lastc_app; discriminate]).
    Qed.
    Definition nkids (n : node) : Prop := forall x c, In (x, c) (kids n) -> G c.
    Lemma nkids_sig f : nkids (NFSig f) -> sig_kids f.
    Proof. apply sig_kids_of. Qed.
    Lemma nkids_thunk f ta : nkids (NThunk f ta) -> sig_kids f.
    Proof. apply sig_kids_of. Qed.
    Lemma one_sig_pre n p : nkids n -> onew any (sig_pre E rec n p).
    Proof. destruct n; cbn [sig_pre]; intros H; try apply onew_panic; [apply one_fsig_pre, nkids_sig; assumption|eapply one_thunk_pre, nkids_thunk; eassumption]. Qed.
    Lemma one_sig_post n p : nkids n -> onew rem0 (sig_post E rec n p).
    Proof. destruct n; cbn [sig_post]; intros H; try apply onew_panic; [apply one_fsig_post, nkids_sig; assumption|eapply one_thunk_post, nkids_thunk; eassumption]. Qed.
    Lemma one_ptr_pre q a cls p : nkids (NPtr q a cls p) -> onew any (ptr_pre E sg rec q a cls p).
    Proof.
      intros H. assert (Gp : G p) by (eapply H; cbn [kids]; apply in_or_app; right; left; reflexivity).
      unfold ptr_pre. destruct (resolve sg KType p) as [n|] eqn:Hn; [|apply onew_panic].
      destruct (HG p n Gp (resolve_nth _ _ _ _ Hn)) as [Hk _].
      ow; try us; [apply one_sig_pre; exact Hk| |].
      - subst. eapply H. cbn [kids opt_kid]. left. reflexivity.
      - destruct a as [[]|]; ow; us.
    Qed.
    Lemma one_ptr_post q a cls p : nkids (NPtr q a cls p) -> onew rem0 (ptr_post E sg rec p).
    Proof.
      intros H. assert (Gp : G p) by (eapply H; cbn [kids]; apply in_or_app; right; left; reflexivity).
      unfold ptr_post. destruct (resolve sg KType p) as [n|] eqn:Hn; [|apply onew_panic].
      destruct (HG p n Gp (resolve_nth _ _ _ _ Hn)) as [Hk _]. r0; [apply one_sig_post; exact Hk|apply Honep; assumption].
    Qed.
    Lemma one_one_dim h : onew any (one_dim E sg h).
    Proof. unfold one_dim. destruct (resolve sg KAny h) as [[]|]; try apply onew_panic. ow. unfold int_out. destruct neg; ow; us. Qed.
    Lemma one_rest_dims l : onew any (rest_dims E sg l).
    Proof. induction l; cbn [rest_dims]; ow; [us|apply one_one_dim|assumption]. Qed.
    Lemma one_dims d : onew any (out_dims E sg d).
    Proof. unfold out_dims. destruct (resolve sg KNodes d) as [[]|]; try apply onew_panic. destruct l; ow; [apply one_one_dim|apply one_rest_dims]. Qed.
    Lemma one_tp tp : (forall h, tp = Some h -> G h) -> onew any (out_tp E rec tp).
    Proof. intros H. unfold out_tp. ow; try us. apply H; assumption. Qed.
    Lemma one_rest_nodes sep l : ustr sep -> Forall G l -> onew any (rest_nodes E rec sep l).
    Proof. intros Hs. induction 1; cbn [rest_nodes]; ow; assumption. Qed.
    Lemma one_nodes sep l : ustr sep -> Forall G l -> onew any (out_nodes E rec sep l).
    Proof. intros Hs H. destruct H; cbn [out_nodes]; ow; [assumption|apply one_rest_nodes; assumption]. Qed.

    Lemma kid_opt n k o h : nkids n -> In (KK k, h) (opt_kid k o) -> (forall x, In x (opt_kid k o) -> In x (kids n)) -> G h.
    Proof. intros H H1 H2. eapply H, H2, H1. Qed.
    Lemma in_opt k h o : o = Some h -> In (KK k, h) (opt_kid k o).
    Proof. intros ->. left; reflexivity. Qed.
    Ltac kd :=
      match goal with
      | H : nkids ?n |- G ?h => eapply (H _ h); cbn [kids app In]; rewrite ?in_app_iff; cbn [In];
          first [left; reflexivity|right; left; reflexivity|right; right; left; reflexivity
                |left; apply in_opt; (assumption || reflexivity)|right; apply in_opt; (assumption || reflexivity)|apply in_opt; (assumption || reflexivity)
                |right; left; apply in_opt; (assumption || reflexivity)]
      end.
    Lemma nkids_nodes l : nkids (NNodes l) -> Forall G l.
    Proof. intros H. apply Forall_forall. intros h Hh. eapply H. cbn [kids]. apply in_map. exact Hh. Qed.
    Lemma ustr_prim k : ustr (prim_name k). Proof. destruct k; us. Qed.
    Lemma ustr_tag k : ustr (tag_name k ++ L " "). Proof. destruct k; us. Qed.
    Lemma ustr_ifk k : ustr (ifk_name k). Proof. destruct k; us. Qed.

    Lemma one_out_pre n : nkids n -> strs_ok n -> onew any (out_pre E sg rec n).
    Proof.
      intros H Hs. destruct n; cbn [out_pre]; try apply onew_panic.
      - ow. apply ustr_prim.
      - apply one_fsig_pre, nkids_sig; assumption.
      - eapply one_thunk_pre, nkids_thunk; eassumption.
      - apply one_ptr_pre; assumption.
      - ow; [apply ustr_tag|kd].
      - ow. kd.
      - ow. kd.
    Qed.
    Lemma one_out_post n : nkids n -> onew rem0 (out_post E sg rec n).
    Proof.
      intros H. destruct n; cbn [out_post]; try apply onew_panic; try (apply onew_ret; discriminate).
      - apply one_fsig_post, nkids_sig; assumption.
      - eapply one_thunk_post, nkids_thunk; eassumption.
      - eapply one_ptr_post; eassumption.
      - change (onew rem0 (put E (L "[") >> out_dims E sg dims >> put E (L "]") >> rec OPost KType el)).
        apply onew_rem0_app; [r0|]. eapply (onew_seq E any ends0 rem0); [|apply one_dims|].
        2:{ apply (onew_seq E ends0 rem0 ends0); [|apply onew_end0; [discriminate|us|discriminate]|apply Honep; kd]. 
            intros a b [H1 H2] H3. split; [intros He; apply app_eq_nil in He; tauto|apply rem0_app; assumption]. }
        intros a b _ [H1 H2]. apply rem0_end; assumption.
    Qed.

    Lemma one_var name sc ty : nkids (NVar name sc ty) -> onew any (var_out E rec name sc ty).
    Proof.
      intros H. unfold var_out. 
      assert (Hty : forall t, ty = Some t -> G t) by (intros t ->; kd).
      assert (Hq : forall h, name = Some (VQualified h) -> G h) by (intros t ->; kd).
      match goal with |- context [let '(_, _) := ?m in _] => destruct m as [access is_static] eqn:Ha end.
      assert (Hu : forall a, access = Some a -> ustr (a ++ L ": ")).
      { intros a Hx. destruct sc as [[]|]; injection Ha as <- <-; try discriminate; injection Hx as <-; us. }
      ow; [apply Hu; assumption|us|]. destruct name as [[h|]|]; ow; try us.
      - apply Hty. destruct (_ && _); [assumption|discriminate].
      - apply Hq; reflexivity.
      - apply Hty. destruct (_ && _); [assumption|discriminate].
      - apply Hty; assumption.
    Qed.
    Lemma one_offs zs : onew any (fold_right (fun z k => put E (L ", " ++ dec_Z z) >> k) (put E (L "}")) zs).
    Proof. induction zs; cbn [fold_right]; ow; us. Qed.
    Lemma one_tpr sym offs a : (forall h, sym = Some h -> G h) -> onew any (tpr_out E rec sym offs a).
    Proof.
      intros H. unfold tpr_out. ow.
      - destruct offs; ow; us.
      - apply H; assumption.
      - us.
      - destruct offs; ow; [us|apply one_offs].
    Qed.
    Lemma ustr_lit s (trunc : bool) k : ustr s -> ustr (str_prefix k ++ s ++ L """" ++ (if trunc then L "..." else [])).
    Proof. intros H. apply ustr_app; [destruct k; us|]. apply ustr_app; [exact H|]. destruct trunc; us. Qed.
    Lemma one_out_full n : nkids n -> strs_ok n -> onew any (out_full E sg rec n).
    Proof.
      intros H Hs. destruct n; cbn [out_full];
        try (apply onew_any_app; [apply one_out_pre; assumption|apply rem0_any, one_out_post; assumption]);
        cbn [strs_ok] in Hs.
      - ow; us.
      - ow; try us. destruct id; ow; try us; kd.
      - ow; [exact Hs|]. apply one_tp. intros h ->. kd.
      - ow; [apply ustr_ifk|]. apply one_tp. intros h ->. kd.
      - ow; [us|]. apply one_tp. intros h ->. kd.
      - ow; us.
      - ow; try us. { apply one_tp. intros h ->. kd. } kd.
      - ow; try us; [kd|apply one_tp; intros h ->; kd].
      - ow; us.
      - apply one_nodes; [us|]. apply nkids_nodes; assumption.
      - destruct (resolve sg KNodes components) as [[]|] eqn:Hr; try apply onew_panic.
        apply one_nodes; [us|]. apply nkids_nodes. assert (Gc : G components) by kd. intros x d Hd.
        eapply (proj1 (HG components _ Gc (resolve_nth _ _ _ _ Hr))); eassumption.
      - apply one_tpr. intros h ->. kd.
      - unfold int_out. destruct neg; ow; us.
      - ow. kd.
      - ow; try us; kd.
      - ow. kd.
      - unfold strlit_out. ow. apply ustr_lit. exact Hs.
      - apply one_var; assumption.
      - ow; kd.
    Qed.
    Lemma one_out_node m n : nkids n -> strs_ok n -> onew any (out_node E sg rec m n).
    Proof. intros H Hs. destruct m; [apply one_out_full|apply one_out_pre|apply rem0_any, one_out_post]; assumption. Qed.

    (** *** Both printers *)
    Lemma sim_JQ w w' : simw J J w w' -> simw J Q w w'.
    Proof. apply simw_weak; [auto|apply J_Q]. Qed.
    Lemma sim_QQ_S w w' : simw S0 J w w' -> simw Q Q w w'.
    Proof. apply simw_weak; [apply Q_S|apply J_Q]. Qed.
    Lemma sim_CJ w w' : simw J J w w' -> simw C J w w'.
    Proof. apply simw_weak; [apply C_J|auto]. Qed.
    Lemma sim_CJ_C w w' : simw C C w w' -> simw C J w w'.
    Proof. apply simw_weak; [auto|apply C_J]. Qed.
    Lemma sim_CQ w w' : simw C J w w' -> simw C Q w w'.
    Proof. apply simw_weak; [auto|apply J_Q]. Qed.
    Lemma sim_CQ_Q w w' : simw Q Q w w' -> simw C Q w w'.
    Proof. apply simw_weak; [intros x y H; apply J_Q, C_J, H|auto]. Qed.
    Lemma sim_CS w w' : simw S0 J w w' -> simw C J w w'.
    Proof. apply simw_weak; [apply C_S|auto]. Qed.
    Lemma sim_QC s : s <> [] -> ustr s -> word E s = false -> simw Q C (put E s) (put E' s).
    Proof. intros. refine (simw_weak _ _ _ _ _ _ (Q_S E _) (fun _ _ h => h) (sim_putC E E' V kap s _ _ _)); assumption. Qed.
    Lemma sim_JC s : s <> [] -> ustr s -> word E s = false -> simw J C (put E s) (put E' s).
    Proof. intros. refine (simw_weak _ _ _ _ _ _ (J_S E kap) (fun _ _ h => h) (sim_putC E E' V kap s _ _ _)); assumption. Qed.
    Lemma sim_CC s : s <> [] -> ustr s -> word E s = false -> simw C C (put E s) (put E' s).
    Proof. intros. refine (simw_weak _ _ _ _ _ _ (C_S E kap) (fun _ _ h => h) (sim_putC E E' V kap s _ _ _)); assumption. Qed.
    Ltac sw1 :=
      match goal with
      | |- simw ?P ?P w_ret w_ret => apply simw_ret
      | |- simw _ _ w_panic _ => apply simw_panic
      | |- simw (Less.J E _) (Less.J E _) (put E ?s) (put E' ?s) => apply (sim_put E E' V)
      | |- simw (Less.Q E _) (Less.Q E _) (put E ?s) (put E' ?s) => apply (sim_put_Q E E' V)
      | |- simw (Less.C E _) (Less.C E _) (put E ?s) (put E' ?s) => apply sim_CC; [discriminate| |reflexivity]
      | |- simw (Less.J E _) (Less.C E _) (put E ?s) (put E' ?s) => apply sim_JC; [discriminate| |reflexivity]
      | |- simw (Less.Q E _) (Less.C E _) (put E ?s) (put E' ?s) => apply sim_QC; [discriminate| |reflexivity]
      | |- simw (Less.Q E _) (Less.J E _) (put E ?s) (put E' ?s) => apply (sim_put_QJ E E' V); [discriminate|]
      | |- simw (Less.J E _) (Less.J E _) (_ >> _) (_ >> _) => eapply (simw_seq J J J)
      | |- simw (Less.Q E _) (Less.Q E _) (_ >> _) (_ >> _) => eapply (simw_seq Q Q Q)
      | |- simw _ _ (w_if ?c _) (w_if ?c _) => apply sim_if; intros ?
      | |- simw _ _ (w_opt ?o _) (w_opt ?o _) => apply sim_opt; intros ? ?
      | |- simw _ _ (if ?c then _ else _) (if ?c then _ else _) => apply sim_ite; intros ?
      | |- simw (Less.J E _) (Less.J E _) (space_if_necessary E) (space_if_necessary E') => apply (sim_space E E' V)
      | |- simw (Less.J E _) (Less.C E _) (space_if_necessary E) (space_if_necessary E') => apply (sim_spaceC E E' V)
      | |- simw (Less.J E _) (Less.J E _) (out_quals E _ _ false) (out_quals E' _ _ false) => apply sim_quals
      | |- simw (Less.J E _) (Less.J E _) (out_cc E _) (out_cc E' _) => apply sim_cc
      | |- simw (Less.C E _) (Less.J E _) (out_cc E _) (out_cc E' _) => apply sim_CJ, sim_cc
      | |- simw (Less.C E _) (Less.J E _) (rec OPre _ _) (rec' OPre _ _) => apply Hpre
      | |- simw (Less.C E _) (Less.Q E _) (rec OFull _ _) (rec' OFull _ _) => apply Hfull; [|reflexivity]
      | |- simw (Less.Q E _) (Less.Q E _) (rec OPost _ _) (rec' OPost _ _) => apply Hpost
      end.
    Ltac sw := repeat sw1.
    Ltac CC := repeat first [sw1|eapply (simw_seq C C C)].
    (** A flag-controlled part. *)
    Lemma fl_C c c' m m' : imp c' c -> (c = true -> c' = true -> simw C C m m') -> onew rem0 m -> simw C C (w_if c m) (w_if c' m').
    Proof. intros Hi H1 H2. apply sim_if_gen; auto. intros _ _. apply sim_dropC; exact H2. Qed.
    Lemma fl_Q c c' m m' : imp c' c -> (c = true -> c' = true -> simw Q Q m m') -> onew rem0 m -> simw Q Q (w_if c m) (w_if c' m').
    Proof. intros Hi H1 H2. apply sim_if_gen; auto. intros _ _. apply sim_drop_Q; exact H2. Qed.
    Lemma onew_sp0 m : onew any m -> onew rem0 (m >> put E (L " ")).
    Proof. intros H. apply rem_rem0w, onew_rem_sp, H. Qed.

    Lemma sim_if_gen_CJ c c' m m' : imp c' c -> (c = true -> simw C J m m') -> onew rem0 m -> simw C J (w_if c m) (w_if c' m').
    Proof.
      intros Hi H1 H2. destruct c, c'; cbn [w_if]; [apply H1; reflexivity| |discriminate (Hi eq_refl)|apply sim_CJ_C, simw_ret].
      apply sim_CJ_C, sim_dropC, H2.
    Qed.
    Lemma sim_fsig_pre f p : sig_kids f -> simw C J (fsig_pre E rec f p) (fsig_pre E' rec' f p).
    Proof.
      intros [H1 H2]. unfold fsig_pre.
      eapply (simw_seq C C J); [apply fl_C; [im|intros _ _; CC; us|r0]|].
      eapply (simw_seq C C J); [apply fl_C; [im|intros _ _; CC; us|r0]|].
      eapply (simw_seq C C J).
      { apply fl_C; [im|intros _ _; apply sim_opt; intros h Hh; eapply (simw_seq C J C); [sw; apply H1; assumption|sw; us]|].
        apply onew_opt; [discriminate|]. intros h Hh. apply onew_sp0, Hone, H1; assumption. }
      apply sim_if_gen_CJ; [im|intros _; destruct (fs_cc f); cbn [w_opt]; [sw|apply sim_CJ_C; sw]|].
      apply onew_opt; [discriminate|]. intros c _. apply rem_rem0w, onew_cc.
    Qed.

    Definition vpart F : W := fun b => match last_char b with Some c => w_if (negb (c =? ch "(")%N) (put F (L ", ")) b | None => w_ret b end.
    Lemma vpart_eq F b x : good b x -> vpart F b = match lastc x with Some c => w_if (negb (c =? ch "(")%N) (put F (L ", ")) b | None => w_ret b end.
    Proof. intros H. unfold vpart. rewrite (last_good b x H). reflexivity. Qed.
    Lemma sim_variadic : simw (Less.Q E True) S0 (vpart E) (vpart E').
    Proof.
      intros b b' x x' Hb Hb' Hx b1 Hw. rewrite (vpart_eq E b x Hb) in Hw. rewrite (vpart_eq E' b' x' Hb').
      destruct Hx as (HS & HK & _).
      assert (Hsame : forall b2, put E (L ", ") b = (b2, Ok tt) -> exists b1' y y', put E' (L ", ") b' = (b1', Ok tt) /\ good b2 y /\ good b1' y' /\ S0 y y').
      { intros b2 H2. destruct (sim_put_S E E' V True (L ", ") ltac:(discriminate) ltac:(us) b b' x x' Hb Hb' HS b2 H2) as (c & y & y' & G1 & G2 & G3 & G4).
        exists c, y, y'. split; [assumption|]. split; [assumption|]. split; [assumption|]. apply G4. }
      assert (Hdrop : forall b2, put E (L ", ") b = (b2, Ok tt) -> exists b1' y y', w_ret b' = (b1', Ok tt) /\ good b2 y /\ good b1' y' /\ S0 y y').
      { intros b2 H2. apply (sim_drop_S E (put E (L ", ")) ltac:(ow; us) b b' x x' Hb Hb' HS b2 H2). }
      assert (Hnone : exists b1' y y', w_ret b' = (b1', Ok tt) /\ good b y /\ good b1' y' /\ S0 y y') by (exists b', x, x'; auto).
      destruct (lastc x') as [c'|] eqn:L'.
      - destruct (N.eqb_spec c' (ch "(")) as [->|Hc']; cbn [negb w_if].
        + destruct (lastc x) as [c|]; [|injection Hw as <-; exact Hnone].
          destruct (N.eqb_spec c (ch "(")); cbn [negb w_if] in Hw; [injection Hw as <-; exact Hnone|]. apply Hdrop; exact Hw.
        + destruct (lastc x) as [c|] eqn:Lx.
          * destruct (N.eqb_spec c (ch "(")) as [->|]; cbn [negb w_if] in Hw; [|apply Hsame; exact Hw].
            exfalso. apply Hc'. specialize (HK I Lx). congruence.
          * exfalso. apply lastc_none in Lx. subst x. destruct HS as [HS _]. apply del_nil_inv in HS. subst x'. discriminate L'.
      - destruct (lastc x) as [c|]; [|injection Hw as <-; exact Hnone].
        destruct (N.eqb_spec c (ch "(")); cbn [negb w_if] in Hw; [injection Hw as <-; exact Hnone|]. apply Hdrop; exact Hw.
    Qed.
    (** A word that loses its underscores. *)
    Ltac two :=
      refine (simw_weak _ _ _ _ _ _ (fun _ _ h => h) (fun _ _ h => h) _);
      destruct (no_leading_underscores E) eqn:U, (no_leading_underscores E') eqn:U'; try (rewrite (le_under _ _ V U) in U'; discriminate);
        apply (sim_put2 E E' V); try (apply delb_ok; reflexivity); try discriminate; try reflexivity; us.
    Lemma sim_fsig_post f p : sig_kids f -> simw Q Q (fsig_post E rec f p) (fsig_post E' rec' f p).
    Proof.
      intros [H1 H2]. unfold fsig_post.
      eapply (simw_seq Q Q Q).
      { apply fl_Q; [im| |].
        - intros _ _. eapply (simw_seq Q (Less.C E True) Q).
          { refine (simw_weak _ _ _ _ _ _ (Q_S E _) (fun _ _ h => h) (sim_putC E E' V True _ _ _ _)); [discriminate|us|reflexivity]. }
          eapply (simw_seq (Less.C E True) (Less.Q E True) Q).
          { destruct (fs_params f) as [h|] eqn:Hp; [sw; apply H2; reflexivity|].
            refine (simw_weak _ _ _ _ _ _ (C_S E True) (J_Q E True) (sim_put_S E E' V True _ _ _)); [discriminate|us]. }
          eapply (simw_seq (Less.Q E True) S0 Q).
          { destruct (fs_variadic f); cbn [w_if]; [|exact (simw_weak _ _ _ _ _ _ (fun _ _ h => h) (Q_S E True) (simw_ret _))].
            eapply (simw_seq (Less.Q E True) S0 S0); [exact sim_variadic|].
            refine (simw_weak _ _ _ _ _ _ (fun _ _ h => h) (J_S E kap) (sim_put_S E E' V kap _ _ _)); [discriminate|us]. }
          refine (simw_weak _ _ _ _ _ _ (fun _ _ h => h) (J_Q E kap) (sim_put_S E E' V kap _ _ _)); [discriminate|us].
        - apply ends_rem0. apply onew_ends; [ow; us|]. apply onew_ends.
          { destruct (fs_params f) as [h|] eqn:Hp; ow; [apply H2; reflexivity|us]. }
          apply onew_ends; [|apply onew_end0; [discriminate|us|discriminate]]. ow; [|us]. apply onew_variadic. }
      eapply (simw_seq Q Q Q).
      { apply fl_Q; [im| |r0].
        intros _ _. eapply (simw_seq Q Q Q); [sw; us|]. eapply (simw_seq Q Q Q); [sw; us|].
        apply fl_Q; [im| |r0]. intros _ _. sw; apply sim_QQ_S; two. }
      eapply (simw_seq Q Q Q); [sw; us|].
      eapply (simw_seq Q Q Q).
      { apply fl_Q; [im| |r0; destruct a; r0]. intros _ _. apply sim_opt. intros r _. destruct r; sw; us. }
      apply fl_Q; [im|intros _ _; apply sim_opt; intros h Hh; sw; apply H1; assumption|].
      apply onew_opt; [discriminate|]. intros h Hh. apply Honep, H1; assumption.
    Qed.
    Lemma sim_thunk_pre f p : sig_kids f -> simw C J (thunk_pre E rec f p) (thunk_pre E' rec' f p).
    Proof.
      intros H. unfold thunk_pre. eapply (simw_seq C C J); [|apply sim_fsig_pre; assumption].
      apply fl_C; [im|intros _ _; CC; us|r0].
    Qed.
    Lemma sim_thunk_post f ta p : sig_kids f -> simw Q Q (thunk_post E rec f ta p) (thunk_post E' rec' f ta p).
    Proof.
      intros H. unfold thunk_post. eapply (simw_seq Q Q Q); [|apply sim_fsig_post; assumption]. sw; us.
    Qed.
    Lemma sim_sig_pre n p : nkids n -> simw C J (sig_pre E rec n p) (sig_pre E' rec' n p).
    Proof. destruct n; cbn [sig_pre]; intros H; try apply simw_panic; [apply sim_fsig_pre, nkids_sig; assumption|eapply sim_thunk_pre, nkids_thunk; eassumption]. Qed.
    Lemma sim_sig_post n p : nkids n -> simw Q Q (sig_post E rec n p) (sig_post E' rec' n p).
    Proof. destruct n; cbn [sig_post]; intros H; try apply simw_panic; [apply sim_fsig_post, nkids_sig; assumption|eapply sim_thunk_post, nkids_thunk; eassumption]. Qed.
    Lemma nrel_eq n n' : nrel n n' -> match n with NNamed _ _ => False | _ => True end -> n' = n.
    Proof. destruct n; cbn; intros H Hn; try contradiction; destruct H as [H _]; symmetry; exact H. Qed.
    Lemma resolve_type h n : resolve sg KType h = Some n -> resolve sg' KType h = Some n.
    Proof.
      intros H. destruct (srel_resolve _ _ _ _ _ HR H) as (n' & H1 & H2). rewrite H1. f_equal. apply nrel_eq; [assumption|].
      unfold resolve in H. destruct (nth_error sg h) as [m|]; [|discriminate]. destruct (hkind KType m) eqn:Hk; [|discriminate].
      injection H as ->. destruct n; cbn in Hk; (exact I || discriminate Hk).
    Qed.
    Lemma sim_ptr_pre q a cls p : nkids (NPtr q a cls p) -> simw C J (ptr_pre E sg rec q a cls p) (ptr_pre E' sg' rec' q a cls p).
    Proof.
      intros H. assert (Gp : G p) by (eapply H; cbn [kids]; apply in_or_app; right; left; reflexivity).
      unfold ptr_pre. destruct (resolve sg KType p) as [n|] eqn:Hn; [|apply simw_panic]. rewrite (resolve_type _ _ Hn).
      destruct (HG p n Gp (resolve_nth _ _ _ _ Hn)) as [Hk _].
      eapply (simw_seq C J J); [sw; [apply sim_sig_pre; exact Hk|assumption]|].
      eapply (simw_seq J C J); [sw|].
      eapply (simw_seq C C J).
      { apply fl_C; [im| |destruct (no_leading_underscores E); r0]. intros _ _.
        destruct (no_leading_underscores E) eqn:U, (no_leading_underscores E') eqn:U'; try (rewrite (le_under _ _ V U) in U'; discriminate); try (CC; us).
        intros b b' x x' Hb Hb' Hx b1 Hw.
        destruct (put2 E E' V kap (L "__unaligned ") (L "unaligned ") b b' x x' b1) as (b1' & P1 & P2 & P3 & P4); try assumption; try discriminate; try reflexivity; try us; try (apply Hx).
        { apply delb_ok; reflexivity. }
        exists b1', (x ++ L "__unaligned "), (x' ++ L "unaligned "). split; [assumption|]. split; [assumption|]. split; [assumption|].
        split; [apply P4|]. split; [apply P4|]. rewrite word_app. reflexivity. }
      eapply (simw_seq C C J).
      { apply sim_ite; intros _; [CC; us|]. apply sim_ite; intros _; [|apply simw_ret].
        eapply (simw_seq C C C); [CC; us|]. apply fl_C; [im| |].
        - intros _ _. apply sim_opt. intros c _. eapply (simw_seq C J C); [sw|sw; us].
        - apply onew_opt; [discriminate|]. intros c _. apply onew_sp0. ow. }
      eapply (simw_seq C C J).
      { apply sim_opt. intros h Hh. eapply (simw_seq C Q C); [sw|sw; us]. subst. eapply H. cbn [kids opt_kid]. left. reflexivity. }
      eapply (simw_seq C J J); [|sw]. destruct a as [[]|]; try apply simw_panic; apply sim_CJ; sw; us.
    Qed.
    Lemma sim_ptr_post q a cls p : nkids (NPtr q a cls p) -> simw Q Q (ptr_post E sg rec p) (ptr_post E' sg' rec' p).
    Proof.
      intros H. assert (Gp : G p) by (eapply H; cbn [kids]; apply in_or_app; right; left; reflexivity).
      unfold ptr_post. destruct (resolve sg KType p) as [n|] eqn:Hn; [|apply simw_panic]. rewrite (resolve_type _ _ Hn).
      destruct (HG p n Gp (resolve_nth _ _ _ _ Hn)) as [Hk _]. sw; try us. apply sim_sig_post; exact Hk.
    Qed.
    Lemma sim_one_dim h : simw Q Q (one_dim E sg h) (one_dim E' sg' h).
    Proof.
      unfold one_dim. destruct (resolve sg KAny h) as [n|] eqn:Hn; [|apply simw_panic].
      destruct (srel_resolve _ _ _ _ _ HR Hn) as (n' & H1 & H2). rewrite H1.
      destruct n; try apply simw_panic. apply nrel_eq in H2; [|exact I]. subst n'. sw. unfold int_out. destruct neg; sw; us.
    Qed.
    Lemma sim_rest_dims l : simw Q Q (rest_dims E sg l) (rest_dims E' sg' l).
    Proof. induction l; cbn [rest_dims]; sw; [us|apply sim_one_dim|assumption]. Qed.
    Lemma resolve_nodes h n : resolve sg KNodes h = Some n -> resolve sg' KNodes h = Some n.
    Proof.
      intros H. destruct (srel_resolve _ _ _ _ _ HR H) as (n' & H1 & H2). rewrite H1. f_equal. apply nrel_eq; [assumption|].
      unfold resolve in H. destruct (nth_error sg h) as [m|]; [|discriminate]. destruct (hkind KNodes m) eqn:Hk; [|discriminate].
      injection H as ->. destruct n; cbn in Hk; (exact I || discriminate Hk).
    Qed.
    Lemma sim_dims d : simw Q Q (out_dims E sg d) (out_dims E' sg' d).
    Proof.
      unfold out_dims. destruct (resolve sg KNodes d) as [n|] eqn:Hn; [|apply simw_panic]. rewrite (resolve_nodes _ _ Hn).
      destruct n; try apply simw_panic. destruct l; sw; [apply sim_one_dim|apply sim_rest_dims].
    Qed.
    (** Template parameters end in a closing bracket. *)
    Lemma sim_tp_Q tp : (forall h, tp = Some h -> G h) -> simw Q Q (out_tp E rec tp) (out_tp E' rec' tp).
    Proof.
      intros H. unfold out_tp. apply sim_opt. intros h Hh. eapply (simw_seq Q C Q); [sw; us|]. eapply (simw_seq C Q Q); [sw; apply H; assumption|sw; us].
    Qed.
    Lemma sim_tp tp : (forall h, tp = Some h -> G h) -> simw J J (out_tp E rec tp) (out_tp E' rec' tp).
    Proof.
      intros H. unfold out_tp. apply sim_opt. intros h Hh. eapply (simw_seq J C J); [sw; us|]. eapply (simw_seq C Q J); [sw; apply H; assumption|sw; us].
    Qed.
    Lemma sim_rest_nodes sep l : sep <> [] -> ustr sep -> word E sep = false -> Forall G l -> Forall (notvar sg) l ->
      simw Q Q (rest_nodes E rec sep l) (rest_nodes E' rec' sep l).
    Proof.
      intros Hn Hs Hc. induction 1 as [|h l Gh Gl IH]; intros Hv; cbn [rest_nodes]; [apply simw_ret|]. inversion Hv; subst.
      eapply (simw_seq Q C Q); [apply sim_QC; assumption|]. eapply (simw_seq C Q Q); [apply Hany; assumption|apply IH; assumption].
    Qed.
    Lemma sim_nodes sep l : sep <> [] -> ustr sep -> word E sep = false -> Forall G l -> Forall (notvar sg) l ->
      simw C Q (out_nodes E rec sep l) (out_nodes E' rec' sep l).
    Proof.
      intros Hn Hs Hc H Hv. destruct H; cbn [out_nodes]; [apply sim_CQ_Q, simw_ret|]. inversion Hv; subst.
      eapply (simw_seq C Q Q); [apply Hany; assumption|apply sim_rest_nodes; assumption].
    Qed.
    Lemma sim_rest_named sep l : sep <> [] -> ustr sep -> word E sep = false -> Forall G l -> Forall (named sg) l ->
      simw J J (rest_nodes E rec sep l) (rest_nodes E' rec' sep l).
    Proof.
      intros Hn Hs Hc. induction 1 as [|h l Gh Gl IH]; intros Hv; cbn [rest_nodes]; [apply simw_ret|]. inversion Hv; subst.
      eapply (simw_seq J C J); [apply sim_JC; assumption|]. eapply (simw_seq C J J); [apply Hnamed; assumption|apply IH; assumption].
    Qed.
    Lemma sim_nodes_named sep l : sep <> [] -> ustr sep -> word E sep = false -> Forall G l -> Forall (named sg) l ->
      simw C J (out_nodes E rec sep l) (out_nodes E' rec' sep l).
    Proof.
      intros Hn Hs Hc H Hv. destruct H; cbn [out_nodes]; [apply sim_CJ, simw_ret|]. inversion Hv; subst.
      eapply (simw_seq C J J); [apply Hnamed; assumption|apply sim_rest_named; assumption].
    Qed.
    Lemma sim_name tp tp' s s' : (forall h, tp = Some h -> G h) -> nrel (NNamed tp s) (NNamed tp' s') ->
      simw C J (put E s >> out_tp E rec tp) (put E' s' >> out_tp E' rec' tp').
    Proof.
      intros H (<- & Hu & Hu' & Hd & Hl). eapply (simw_seq C J J); [|apply sim_tp; assumption].
      destruct s' as [|c' s'].
      - apply (proj1 (lastc_none s)) in Hl. subst s. apply sim_CJ_C. exact (simw_ret C).
      - apply sim_CS, (sim_put2 E E' V); try assumption. discriminate.
    Qed.

    Lemma sim_out_pre n : nkids n -> tag_ok sg n -> simw C J (out_pre E sg rec n) (out_pre E' sg' rec' n).
    Proof.
      intros H Ht. destruct n; cbn [out_pre]; try apply simw_panic.
      - apply sim_CJ. sw. apply ustr_prim.
      - apply sim_fsig_pre, nkids_sig; assumption.
      - eapply sim_thunk_pre, nkids_thunk; eassumption.
      - apply sim_ptr_pre; assumption.
      - eapply (simw_seq C C J); [apply fl_C; [im|intros _ _; match goal with |- context [tag_name ?t] => destruct t end; CC; us|apply rem0_put; [apply ustr_tag|match goal with |- context [tag_name ?t] => destruct t end; discriminate]]|].
        eapply (simw_seq C J J); [apply Hplain; [kd|exact Ht]|sw].
      - eapply (simw_seq C J J); [sw; kd|sw].
      - apply Hnamed; [kd|exact Ht].
    Qed.
    Lemma sim_out_post n : nkids n -> simw Q Q (out_post E sg rec n) (out_post E' sg' rec' n).
    Proof.
      intros H. destruct n; cbn [out_post]; try apply simw_panic; try apply simw_ret.
      - apply sim_fsig_post, nkids_sig; assumption.
      - eapply sim_thunk_post, nkids_thunk; eassumption.
      - eapply sim_ptr_post; eassumption.
      - sw; try us; [apply sim_dims|kd].
    Qed.

    Lemma sim_drop_any w : onew any w -> simw C (Less.C E False) w w_ret.
    Proof.
      intros H b b' x x' Hb Hb' (H1 & H2 & H3) b1 Hw.
      destruct (H b x Hb (proj2 H1) b1 Hw) as (t & T1 & T2 & T3). exists b', (x ++ t), x'. split; [reflexivity|].
      split; [assumption|]. split; [assumption|]. split; [split; [apply del_app_r, H1|assumption]|]. split; [intros []|assumption].
    Qed.
    Lemma sim_var name sc ty : nkids (NVar name sc ty) -> is_desc (NVar name sc ty) = false ->
      simw C S0 (var_out E rec name sc ty) (var_out E' rec' name sc ty).
    Proof.
      intros H Hd. unfold var_out.
      assert (Hty : forall t, ty = Some t -> G t) by (intros t ->; kd).
      assert (Hq : forall h, name = Some (VQualified h) -> G h) by (intros t ->; kd).
      match goal with |- context [let '(_, _) := ?m in _] => destruct m as [access is_static] eqn:Ha end.
      eapply (simw_seq C C S0).
      { apply fl_C; [im| |].
        - intros _ _. apply sim_opt. intros a Hx. destruct sc as [[]|]; injection Ha as <- <-; try discriminate; injection Hx as <-; CC; us.
        - apply onew_opt; [discriminate|]. intros a Hx. destruct sc as [[]|]; injection Ha as <- <-; try discriminate; injection Hx as <-; r0. }
      eapply (simw_seq C C S0); [apply fl_C; [im|intros _ _; CC; us|r0]|].
      destruct name as [[h|]|]; [|discriminate Hd|apply simw_panic]. clear Hd.
      assert (Gh : G h) by (apply Hq; reflexivity).
      destruct (negb (no_variable_type E) && negb (name_only E)) eqn:F, (negb (no_variable_type E') && negb (name_only E')) eqn:F'.
      - eapply (simw_seq C C S0); [apply sim_opt; intros t Ht; eapply (simw_seq C J C); [sw; apply Hty; assumption|sw]|].
        eapply (simw_seq C Q S0); [sw; assumption|]. refine (simw_weak _ _ _ _ _ _ (fun _ _ h => h) (Q_S E _) _). apply sim_opt. intros t Ht. sw. apply Hty; assumption.
      - destruct ty as [t|]; cbn [w_opt].
        2:{ eapply (simw_seq C C S0); [apply simw_ret|]. eapply (simw_seq C Q S0); [sw; assumption|]. refine (simw_weak _ _ _ _ _ _ (fun _ _ h => h) (Q_S E _) (simw_ret _)). }
        assert (Gt : G t) by (apply Hty; reflexivity).
        eapply (simw_seq C (Less.C E False) S0).
        { apply sim_drop_any. ow. assumption. }
        eapply (simw_seq (Less.C E False) S0 S0); [|apply sim_drop_S; apply rem0_any, Honep; assumption].
        refine (simw_weak _ _ _ _ _ _ (fun _ _ h => h) (Q_S E False) _). sw. assumption.
      - exfalso. assert (Hi : imp (negb (no_variable_type E') && negb (name_only E')) (negb (no_variable_type E) && negb (name_only E))) by im.
        specialize (Hi F'). congruence.
      - cbn [w_opt]. eapply (simw_seq C C S0); [apply simw_ret|]. eapply (simw_seq C Q S0); [sw; assumption|].
        refine (simw_weak _ _ _ _ _ _ (fun _ _ h => h) (Q_S E _) (simw_ret _)).
    Qed.

    Lemma good_inj b x y : good b x -> good b y -> x = y.
    Proof. intros [H1 U1] [H2 U2]. rewrite H1 in H2. apply (f_equal from_utf8) in H2. rewrite !from_utf8_utf8 in H2 by assumption. congruence. Qed.
    Lemma sim_quals_C q : simw C C (out_quals E q false true) (out_quals E' q false true).
    Proof.
      intros b b' x x' Hb Hb' Hx b1 Hw.
      destruct (sim_quals_before q b b' x x' Hb Hb' (C_J E kap _ _ Hx) b1 Hw) as (b1' & y & y' & H1 & H2 & H3 & H4).
      exists b1', y, y'. split; [assumption|]. split; [assumption|]. split; [assumption|]. split; [apply H4|]. split; [apply H4|].
      destruct (quals_before_prints E' q x' b' Hb') as [(b2 & H5 & H6 & _)|(b2 & H5 & _)]; [|congruence].
      assert (b2 = b1') by congruence. subst b2. rewrite (good_inj _ _ _ H3 H6), word_app.
      unfold quals_before. destruct (quals_alone E' q) as [|c r]; cbn [opt]; [apply Hx|].
      change (word E ((c :: r) ++ L " ") = false). rewrite word_app. reflexivity.
    Qed.
    Lemma sim_offs_put s : s <> [] -> ustr s -> simw C Q (put E s) (put E' s).
    Proof. intros Hn Hu. refine (simw_weak _ _ _ _ _ _ (C_S E kap) (J_Q E kap) (sim_put_S E E' V kap _ _ _)); assumption. Qed.
    Lemma resolve_qual h n : resolve sg KQual h = Some n -> resolve sg' KQual h = Some n.
    Proof.
      intros H. destruct (srel_resolve _ _ _ _ _ HR H) as (n' & H1 & H2). rewrite H1. f_equal. apply nrel_eq; [assumption|].
      unfold resolve in H. destruct (nth_error sg h) as [m|]; [|discriminate]. destruct (hkind KQual m) eqn:Hk; [|discriminate].
      injection H as ->. destruct n; cbn in Hk; (exact I || discriminate Hk).
    Qed.
    Lemma lastc_cons1 (a : str) (c : N) : lastc (a ++ [c]) = Some c.
    Proof. rewrite lastc_app. reflexivity. Qed.
    Lemma sim_vcall o : simw C Q (if name_only E then put E (L "`vcall'{" ++ dec_N o ++ L "}") else put E (L "`vcall'{" ++ dec_N o ++ L ", {flat}}"))
      (if name_only E' then put E' (L "`vcall'{" ++ dec_N o ++ L "}") else put E' (L "`vcall'{" ++ dec_N o ++ L ", {flat}}")).
    Proof.
      destruct (name_only E) eqn:F, (name_only E') eqn:F'; try (rewrite (le_name _ _ V F) in F'; discriminate);
        refine (simw_weak _ _ _ _ _ _ (C_S E kap) (J_Q E kap) (sim_put2 E E' V kap _ _ _ _ _ _ _)); try discriminate; try us; try apply del_refl.
      all: first [reflexivity|rewrite !lastc_app; reflexivity|repeat apply del_app; try apply del_refl; apply delb_ok; reflexivity].
    Qed.
    Lemma sim_out_full n n' : nrel n n' -> nkids n -> tag_ok sg n -> is_desc n = false -> is_var n = false ->
      simw C Q (out_full E sg rec n) (out_full E' sg' rec' n').
    Proof.
      intros Hr H Ht Hd Hv. pose proof (nrel_strs _ _ Hr) as Hs. destruct n; cbn [strs_ok] in Hs; cbn [is_desc is_var] in *; try discriminate;
        match goal with H : nrel (NNamed _ _) _ |- _ => destruct n'; try (destruct Hr as [Hr _]; discriminate Hr) | _ => apply nrel_eq in Hr; [|exact I]; subst n' end;
        cbn [out_full]; try (eapply (simw_seq C J Q); [apply sim_out_pre; assumption|refine (simw_weak _ _ _ _ _ _ (J_Q E kap) (fun _ _ h => h) _); apply sim_out_post; assumption]).
      - apply sim_vcall.
      - eapply (simw_seq C C Q); [destruct dtor; CC; us|]. destruct id as [h|h]; (eapply (simw_seq C C Q); [CC; us|]).
        + eapply (simw_seq C S0 Q); [apply Hvar; kd|]. refine (simw_weak _ _ _ _ _ _ (fun _ _ h => h) (J_Q E kap) (sim_put_S E E' V kap _ _ _)); [discriminate|us].
        + eapply (simw_seq C Q Q); [sw; kd|sw; us].
      - apply sim_CQ, sim_name; [intros h ->; kd|exact Hr].
      - apply sim_CQ. eapply (simw_seq C J J); [|apply sim_tp; intros h ->; kd]. apply sim_CJ. apply sim_opt. intros o _. sw. apply ustr_ifk.
      - apply sim_CQ. eapply (simw_seq C J J); [|apply sim_tp; intros h ->; kd]. apply sim_CJ. sw. us. 
      - apply sim_CQ. apply sim_CJ. sw; us.
      - eapply (simw_seq C J Q); [apply sim_CJ; sw; us|]. eapply (simw_seq J J Q); [apply sim_tp; intros h ->; kd|].
        eapply (simw_seq J C Q); [sw; us|]. destruct target; cbn [w_opt]; [sw; kd|]. apply sim_CQ_Q, simw_ret.
      - eapply (simw_seq C C Q); [CC; us|]. eapply (simw_seq C Q Q); [|apply sim_tp_Q; intros h ->; kd]. destruct cls; cbn [w_opt]; [sw; kd|]. apply sim_CQ_Q, simw_ret.
      - apply sim_offs_put; [discriminate|us].
      - apply sim_nodes; try discriminate; [us|reflexivity|apply nkids_nodes; assumption|exact Ht].
      - destruct (resolve sg KNodes components) as [n|] eqn:Hn; [|apply simw_panic]. rewrite (resolve_nodes _ _ Hn).
        destruct n; try apply simw_panic. assert (Gc : G components) by kd.
        destruct (HG components _ Gc (resolve_nth _ _ _ _ Hn)) as (Hk & _ & Ht').
        apply sim_nodes; try discriminate; [us|reflexivity|apply nkids_nodes; exact Hk|exact Ht'].
      - unfold int_out. apply sim_CQ, sim_CJ. destruct neg; sw; us.
      - sw. kd.
      - eapply (simw_seq C C Q); [apply fl_C; [im|intros _ _; apply sim_quals_C|apply rem_rem0w, onew_quals_before]|].
        eapply (simw_seq C Q Q); [sw; kd|]. apply sim_opt. intros h ->. eapply (simw_seq Q C Q); [sw; us|]. eapply (simw_seq C Q Q); [sw; kd|sw; us].
      - sw. kd.
      - unfold strlit_out. apply sim_CQ, sim_CJ. sw. apply ustr_lit. exact Hs.
      - eapply (simw_seq C J Q); [sw; kd|]. eapply (simw_seq J C Q); [sw|]. eapply (simw_seq C Q Q); [|sw; kd].
        destruct name; cbn [w_opt]; [sw; kd|]. apply sim_CQ_Q, simw_ret.
    Qed.
  End Node.
End LessOut.

(** The knot. *)
Section Knot.
  Variables E E' : env.
  Hypothesis V : less E E'.
  Variables sg sg' : store.
  Variable G : handle -> Prop.
  Hypothesis HR : srel sg sg'.
  Hypothesis HG : forall h n, G h -> nth_error sg h = Some n ->
    (forall x c, In (x, c) (kids n) -> G c) /\ is_desc n = false /\ tag_ok sg n.

  Record knot_sim (r r' : omode -> kind -> handle -> W) : Prop := {
    ks_one : forall m k h, G h -> onew E any (r m k h);
    ks_onep : forall k h, G h -> onew E rem0 (r OPost k h);
    ks_pre : forall kap k h, G h -> simw (C E kap) (J E kap) (r OPre k h) (r' OPre k h);
    ks_full : forall kap k h, G h -> typed k = true -> simw (C E kap) (Q E kap) (r OFull k h) (r' OFull k h);
    ks_any : forall kap k h, G h -> notvar sg h -> simw (C E kap) (Q E kap) (r OFull k h) (r' OFull k h);
    ks_var : forall kap k h, G h -> simw (C E kap) (S0 E) (r OFull k h) (r' OFull k h);
    ks_post : forall kap k h, G h -> simw (Q E kap) (Q E kap) (r OPost k h) (r' OPost k h);
    ks_named : forall kap k h, G h -> named sg h -> simw (C E kap) (J E kap) (r OFull k h) (r' OFull k h);
    ks_plain : forall kap h, G h -> plain sg h -> simw (C E kap) (J E kap) (r OFull KQual h) (r' OFull KQual h)
  }.
  Lemma typed_notvar k n : hkind k n = true -> typed k = true -> is_var n = false.
  Proof. destruct k, n; cbn; intros; try reflexivity; discriminate. Qed.
  Lemma sim_out fuel : knot_sim (out fuel E sg) (out fuel E' sg').
  Proof.
    induction fuel as [|fuel IH]; [constructor; intros; first [apply onew_fuel|apply simw_fuel]|].
    destruct IH as [I1 I2 I3 I4 I5 I6 I7 I8 I9].
    assert (Hn1 : forall (P : str -> Prop) m k h, (forall n, nth_error sg h = Some n -> hkind k n = true -> strs_ok n -> onew E P (out_node E sg (out fuel E sg) m n)) -> onew E P (out (S fuel) E sg m k h)).
    { intros P m k h Hx. cbn [out]. destruct (resolve sg k h) as [n|] eqn:Hn; [|apply onew_panic].
      pose proof (resolve_nth _ _ _ _ Hn) as Hn'. destruct (srel_nth _ _ _ _ HR Hn') as (n' & _ & Hr). apply Hx; [assumption| |exact (nrel_strs _ _ Hr)].
      unfold resolve in Hn. rewrite Hn' in Hn. destruct (hkind k n); congruence. }
    assert (Hn2 : forall P R m k h, (forall n n', nth_error sg h = Some n -> hkind k n = true -> nrel n n' ->
              simw P R (out_node E sg (out fuel E sg) m n) (out_node E' sg' (out fuel E' sg') m n')) -> simw P R (out (S fuel) E sg m k h) (out (S fuel) E' sg' m k h)).
    { intros P R m k h Hx. cbn [out]. destruct (resolve sg k h) as [n|] eqn:Hn; [|apply simw_panic].
      destruct (srel_resolve _ _ _ _ _ HR Hn) as (n' & H1 & H2). rewrite H1.
      pose proof (resolve_nth _ _ _ _ Hn) as Hn'. apply Hx; [assumption| |exact H2]. unfold resolve in Hn. rewrite Hn' in Hn. destruct (hkind k n); congruence. }
    assert (Hpre : forall n n', nrel n n' -> out_pre E' sg' (out fuel E' sg') n' = out_pre E' sg' (out fuel E' sg') n /\ out_post E' sg' (out fuel E' sg') n' = out_post E' sg' (out fuel E' sg') n).
    { intros n n' Hr. destruct n; try (destruct Hr as [<- _]; auto). destruct n'; try (destruct Hr as [Hr _]; discriminate Hr). auto. }
    assert (Hfull : forall kap h n n', G h -> nth_error sg h = Some n -> nrel n n' -> is_var n = false ->
              simw (C E kap) (Q E kap) (out_full E sg (out fuel E sg) n) (out_full E' sg' (out fuel E' sg') n')).
    { intros kap h n n' Gh Hn Hr Hv. destruct (HG h n Gh Hn) as (H1 & H2 & H3).
      eapply (sim_out_full E E' V kap sg sg' G); eassumption. }
    constructor.
    - intros m k h Gh. apply Hn1. intros n Hn Hk Hs. destruct (HG h n Gh Hn) as (H1 & _).
      eapply (one_out_node E sg G); eassumption.
    - intros k h Gh. apply Hn1. intros n Hn Hk Hs. destruct (HG h n Gh Hn) as (H1 & _). cbn [out_node].
      eapply (one_out_post E sg G); eassumption.
    - intros kap k h Gh. apply Hn2. intros n n' Hn Hk Hr. destruct (HG h n Gh Hn) as (H1 & H2 & H3). cbn [out_node].
      rewrite (proj1 (Hpre _ _ Hr)).
      eapply (sim_out_pre E E' V kap sg sg' G); eassumption.
    - intros kap k h Gh Ht. apply Hn2. intros n n' Hn Hk Hr. cbn [out_node]. eapply Hfull; eauto using typed_notvar.
    - intros kap k h Gh (v & Hv & Hv'). apply Hn2. intros n n' Hn Hk Hr. cbn [out_node]. assert (v = n) by congruence. subst v. eapply Hfull; eauto.
    - intros kap k h Gh. apply Hn2. intros n n' Hn Hk Hr. cbn [out_node]. destruct (is_var n) eqn:Hv.
      + destruct n; try discriminate Hv. apply nrel_eq in Hr; [|exact I]. subst n'. cbn [out_full].
        destruct (HG h _ Gh Hn) as (H1 & H2 & H3).
        eapply (sim_var E E' V kap G); eassumption.
      + refine (simw_weak _ _ _ _ _ _ (fun _ _ h => h) (Q_S E kap) _). eapply Hfull; eauto.
    - intros kap k h Gh. apply Hn2. intros n n' Hn Hk Hr. destruct (HG h n Gh Hn) as (H1 & H2 & H3). cbn [out_node].
      rewrite (proj2 (Hpre _ _ Hr)).
      eapply (sim_out_post E E' V kap sg sg' G); eassumption.
    - intros kap k h Gh (tp & x & Hx). apply Hn2. intros n n' Hn Hk Hr. destruct (HG h n Gh Hn) as (H1 & H2 & H3). cbn [out_node].
      assert (n = NNamed tp x) by congruence. subst n. destruct n'; try (destruct Hr as [Hr _]; discriminate Hr). cbn [out_full].
      eapply (sim_name E E' V kap G); [eassumption| |exact Hr].
      intros c ->. eapply H1. cbn [kids opt_kid]. left; reflexivity.
    - intros kap h Gh (c & l & Hq & Hc & Hl). apply Hn2. intros n n' Hn Hk Hr. destruct (HG h n Gh Hn) as (H1 & H2 & H3). cbn [out_node].
      assert (n = NQual c) by congruence. subst n. apply nrel_eq in Hr; [|exact I]. subst n'. cbn [out_full].
      assert (Gc : G c) by (eapply H1; left; reflexivity). 
      assert (Hrc : resolve sg KNodes c = Some (NNodes l)) by (unfold resolve; rewrite Hc; reflexivity).
      rewrite Hrc, (resolve_nodes sg sg' HR _ _ Hrc).
      eapply (sim_nodes_named E E' V kap sg G); try eassumption; try discriminate; try us; try reflexivity.
      apply nkids_nodes. intros x d Hd. eapply (proj1 (HG c _ Gc Hc)); eassumption.
  Qed.
End Knot.
