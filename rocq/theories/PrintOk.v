(** Printing a well-formed graph: no panic, no fuel exhaustion, only permitted characters,
    only the [OutOfMemory] error, capacity never shrinks.  Proof infrastructure. *)
From Verif Require Import Output Utf8 Wf.

Section Print.
  Variable okc : N -> Prop.
  Hypothesis Hascii : forall c, (c < 128)%N -> okc c.
  Hypothesis Hscalar : forall c, okc c -> scalar c = true.
  Variable E : env.
  Notation oks := (oks okc).
  Notation wf := (wf okc).

  Lemma oks_scalar s : oks s -> Forall (fun c => scalar c = true) s.
  Proof. intros H; eapply Forall_impl; [|eassumption]; apply Hscalar. Qed.
  Lemma oks_ascii s : ascii_str s -> oks s.
  Proof. intros H; eapply Forall_impl; [|eassumption]; apply Hascii. Qed.
  Lemma oks_lit s : forallb (fun c => (c <? 128)%N) s = true -> oks s.
  Proof.
    intros H. apply oks_ascii. apply Forall_forall. rewrite forallb_forall in H.
    intros c Hc. apply N.ltb_lt. auto.
  Qed.
  Lemma oks_app a b : oks a -> oks b -> oks (a ++ b).
  Proof. intros. apply Forall_app; auto. Qed.
  Lemma oks_nil : oks [].
  Proof. constructor. Qed.

  Definition bok (b : buf) : Prop :=
    exists s, b_bytes b = utf8 s /\ oks s /\
              (b_bytes b = [] \/ (N.of_nat (length (b_bytes b)) < e_out E)%N).

  Definition wok (w : W) : Prop := forall b, bok b ->
    (b_cap b <= b_cap (fst (w b)))%N /\
    match snd (w b) with
    | Ok tt => bok (fst (w b)) /\ exists t, b_bytes (fst (w b)) = b_bytes b ++ t
    | Err e => e = Io OutOfMemory
    | _ => False
    end.

  Lemma bok_empty c : bok (mkBuf [] c).
  Proof. exists []. repeat split; auto. constructor. Qed.

  Lemma bok_decode b : bok b -> exists s, from_utf8 (b_bytes b) = Some s /\ oks s /\ b_bytes b = utf8 s.
  Proof.
    intros (s & Hb & Hs & _). exists s. rewrite Hb, from_utf8_utf8 by (apply oks_scalar; assumption). auto.
  Qed.

  Lemma wok_ret : wok w_ret.
  Proof. intros b Hb. cbn. split; [lia|]. split; [assumption|]. exists []. rewrite app_nil_r. reflexivity. Qed.
  Lemma wok_seq m k : wok m -> wok k -> wok (m >> k).
  Proof.
    intros Hm Hk b Hb. unfold w_seq. specialize (Hm b Hb).
    destruct (m b) as [b' [[]|e| |]]; cbn in Hm |- *; try tauto.
    destruct Hm as (Hc & Hb' & t & Ht). specialize (Hk b' Hb').
    destruct (k b') as [b'' [[]|e| |]]; cbn in Hk |- *; try tauto.
    - destruct Hk as (Hc' & Hb'' & t' & Ht'). split; [lia|]. split; [assumption|].
      exists (t ++ t'). rewrite Ht', Ht, app_assoc. reflexivity.
    - split; [lia|]. tauto.
  Qed.
  (** Sequencing where the second action may look at the buffer. *)
  Lemma wok_if c m : (c = true -> wok m) -> wok (w_if c m).
  Proof. destruct c; cbn; auto using wok_ret. Qed.
  Lemma wok_ite (c : bool) m k : (c = true -> wok m) -> (c = false -> wok k) -> wok (if c then m else k).
  Proof. destruct c; auto. Qed.
  Lemma wok_opt {A} (o : option A) f : (forall a, o = Some a -> wok (f a)) -> wok (w_opt o f).
  Proof. destruct o; cbn; auto using wok_ret. Qed.

  Lemma grow_ge cap n : (cap <= grow E cap n)%N.
  Proof. unfold grow. destruct (N.leb_spec n cap); lia. Qed.
  Lemma part_cap_ge ps : forall len cap, (cap <= part_cap E ps len cap)%N.
  Proof.
    induction ps as [|[|k] ps IH]; intros len cap; cbn [part_cap]; [lia|apply IH|].
    destruct (_ <? _)%N; [|lia]. eapply N.le_trans; [apply grow_ge|apply IH].
  Qed.

  Lemma wok_str s : oks s -> wok (w_str E s).
  Proof.
    intros Hs b (t & Hb & Ht & Hl). destruct s as [|c s].
    { cbn. split; [lia|]. split; [exists t; auto|]. exists []. rewrite app_nil_r. reflexivity. }
    unfold w_str.
    destruct (N.ltb_spec (N.of_nat (length (b_bytes b) + length (utf8 (c :: s)))) (e_out E)) as [Hlt|Hge].
    - cbn [fst snd b_cap b_bytes]. split; [apply part_cap_ge|]. split.
      + exists (t ++ c :: s). cbn [b_bytes]. rewrite utf8_app, Hb. split; [reflexivity|]. split.
        * apply oks_app; assumption.
        * right. rewrite <- Hb, app_length. assumption.
      + exists (utf8 (c :: s)). reflexivity.
    - cbn [fst snd b_cap]. split; [apply part_cap_ge|reflexivity].
  Qed.

  Lemma wok_last f : (forall o, wok (f o)) -> wok (fun b => f (last_char b) b).
  Proof. intros H b Hb. apply H. assumption. Qed.

  Ltac lit := apply wok_str; apply oks_lit; vm_compute; reflexivity.

  Lemma wok_space : wok (space_if_necessary E).
  Proof.
    intros b Hb. unfold space_if_necessary. destruct (last_char b) as [c|]; [|apply wok_ret; assumption].
    destruct (_ || _); [|apply wok_ret; assumption].
    revert b Hb. change (wok (w_str E (L " "))). lit.
  Qed.

  Lemma wok_if_present p m sb k : wok m -> (forall b, wok (k b)) -> wok (if_present E p m sb k).
  Proof.
    intros Hm Hk. unfold if_present. destruct p; [|apply Hk].
    repeat apply wok_seq; auto. apply wok_if; intros _; lit.
  Qed.
  Lemma wok_quals q sb sa : wok (out_quals E q sb sa).
  Proof.
    unfold out_quals. destruct (_ =? _)%N; [apply wok_ret|].
    intros b0 Hb0.
    assert (Hk : wok (fun b1 : buf => w_if (sa && (length (b_bytes b0) <? length (b_bytes b1))) (w_str E (L " ")) b1)).
    { intros b1 Hb1. destruct (_ && _); cbn [w_if]; [|apply wok_ret; assumption].
      revert b1 Hb1. change (wok (w_str E (L " "))). lit. }
    assert (Hc : wok (single_const E)) by (unfold single_const; lit).
    assert (Hv : wok (single_volatile E)) by (unfold single_volatile; lit).
    assert (Hr : wok (single_restrict E))
      by (unfold single_restrict; repeat (apply wok_ite; intros _); first [apply wok_ret | lit]).
    refine (wok_seq _ _ _ Hk b0 Hb0).
    apply wok_if_present; [assumption|]. intros s1.
    apply wok_if_present; [assumption|]. intros s2.
    apply wok_if_present; [assumption|]. intros s3. apply wok_ret.
  Qed.

  Lemma wok_cc c : wok (out_cc E c).
  Proof.
    unfold out_cc. apply wok_seq; [apply wok_space|].
    apply wok_str, oks_lit. destruct c; cbn; destruct (no_leading_underscores E); vm_compute; reflexivity.
  Qed.

  Section Node.
    Variable sg : store.
    Variable rec : omode -> kind -> handle -> W.
    Variable Q : handle -> Prop.
    Definition mode_ok (m : omode) (k : kind) : Prop := m = OFull \/ k = KType \/ k = KSig.
    Hypothesis Hrec : forall m k c, mode_ok m k -> wf sg Q c -> kind_at sg (KK k) c -> wok (rec m k c).

    Definition kids_ok (n : node) : Prop :=
      forall x c, In (x, c) (kids n) -> wf sg Q c /\ kind_at sg x c.

    Lemma opt_rec m k o f : mode_ok m k ->
      (forall c, In (KK k, c) (opt_kid k o) -> wf sg Q c /\ kind_at sg (KK k) c) ->
      (forall c, wok (rec m k c) -> wok (f c)) -> wok (w_opt o f).
    Proof.
      intros Hm Ho Hf. destruct o as [c|]; cbn; [|apply wok_ret].
      apply Hf. destruct (Ho c); [left; reflexivity|]. apply Hrec; assumption.
    Qed.

    Ltac go := repeat first
      [ apply wok_ret | apply wok_space | apply wok_cc | apply wok_quals
      | (unfold put; lit)
      | match goal with
        | |- wok (_ >> _) => apply wok_seq
        | |- wok (w_if _ _) => apply wok_if; intros _
        | |- wok (if _ then _ else _) => apply wok_ite; intros _
        end ].
    Ltac kid := match goal with
      | Hk : kids_ok _ |- wok (rec _ _ ?c) =>
        edestruct (Hk) as [? ?]; [|apply Hrec; [unfold mode_ok; auto | eassumption | eassumption]];
        cbn; unfold fsig_kids; rewrite ?in_app_iff; cbn; auto
      end.

    Definition fkids_ok (f : fsig) := forall x c, In (x, c) (fsig_kids f) -> wf sg Q c /\ kind_at sg x c.

    Lemma fret_ok f m g : fkids_ok f -> (forall c, wok (rec m KType c) -> wok (g c)) -> wok (w_opt (fs_ret f) g).
    Proof.
      intros Hf Hg. destruct (fs_ret f) as [c|] eqn:Er; cbn; [|apply wok_ret]. apply Hg.
      destruct (Hf (KK KType) c); [|apply Hrec; unfold mode_ok; auto].
      unfold fsig_kids. rewrite Er. left. reflexivity.
    Qed.

    Lemma wok_fsig_pre f p : fkids_ok f -> wok (fsig_pre E rec f p).
    Proof.
      intros Hf. unfold fsig_pre. go.
      - eapply fret_ok; [eassumption|]. intros c Hc. go. exact Hc.
      - apply wok_opt. intros; apply wok_cc.
    Qed.

    Lemma wok_fsig_post f p : fkids_ok f -> wok (fsig_post E rec f p).
    Proof.
      intros Hf. unfold fsig_post. go.
      - destruct (fs_params f) as [c|] eqn:Ep; [|go].
        destruct (Hf (KK KNodes) c); [|apply Hrec; unfold mode_ok; auto].
        unfold fsig_kids. rewrite Ep. apply in_app_iff. right; left; reflexivity.
      - apply (wok_last (fun o b => match o with Some c => w_if (negb (c =? ch "(")%N) (put E (L ", ")) b | None => w_ret b end)).
        intros [c|]; [|apply wok_ret]. change (wok (w_if (negb (c =? ch "(")%N) (put E (L ", ")))). go.
      - apply wok_opt. intros [|] _; go.
      - eapply fret_ok; [eassumption|]. intros c Hc. exact Hc.
    Qed.

    Lemma oks_dec_N n : oks (dec_N n). Proof. apply oks_ascii, dec_N_ascii. Qed.
    Lemma oks_dec_Z n : oks (dec_Z n). Proof. apply oks_ascii, dec_Z_ascii. Qed.
    Ltac oksapp := repeat first [apply oks_app | apply oks_dec_N | apply oks_dec_Z | assumption | apply oks_nil
      | apply oks_lit; vm_compute; reflexivity ].

    Lemma wok_thunk_pre f p : fkids_ok f -> wok (thunk_pre E rec f p).
    Proof. intros Hf. unfold thunk_pre. go. apply wok_fsig_pre; assumption. Qed.
    Lemma wok_thunk_post f ta p : fkids_ok f -> wok (thunk_post E rec f ta p).
    Proof.
      intros Hf. unfold thunk_post. apply wok_seq; [|apply wok_fsig_post; assumption].
      repeat (apply wok_ite; intros _); try (unfold put; apply wok_str; oksapp). apply wok_ret.
    Qed.

    Lemma wok_sig_pre n p : is_sig n = true -> kids_ok n -> wok (sig_pre E rec n p).
    Proof. destruct n; cbn; try discriminate; intros _ Hk; [apply wok_fsig_pre|apply wok_thunk_pre]; assumption. Qed.
    Lemma wok_sig_post n p : is_sig n = true -> kids_ok n -> wok (sig_post E rec n p).
    Proof. destruct n; cbn; try discriminate; intros _ Hk; [apply wok_fsig_post|apply wok_thunk_post]; assumption. Qed.

    Lemma kids_ok_of h : wf sg Q h -> exists n, nth_error sg h = Some n /\ kids_ok n /\ local_ok okc n.
    Proof.
      intros Hw. destruct (wf_inv _ _ _ _ Hw) as (n & Hn & _ & [Hl Hok] & Hk). exists n.
      split; [assumption|]. split; [|assumption]. intros x c Hc. split; eauto.
    Qed.

    Lemma wok_ptr_pre q a cls p : local_ok okc (NPtr q a cls p) -> kids_ok (NPtr q a cls p) ->
      wok (ptr_pre E sg rec q a cls p).
    Proof.
      intros Hl Hk. unfold ptr_pre.
      destruct (Hk (KK KType) p) as [Hw Hkd]; [cbn; rewrite in_app_iff; cbn; auto|].
      destruct (resolve_kind _ _ _ Hkd) as (n & -> & Hn & Hty).
      destruct (kids_ok_of p Hw) as (n' & Hn' & Hkn & _). assert (n' = n) by congruence; subst n'.
      apply wok_seq.
      { destruct (is_sig n) eqn:Hs; [apply wok_sig_pre; assumption|]. apply Hrec; unfold mode_ok; auto. }
      apply wok_seq; [go|]. apply wok_seq; [go|]. apply wok_seq.
      { go. apply wok_opt. intros c _. go. }
      apply wok_seq.
      { eapply (opt_rec OFull KQual); [unfold mode_ok; auto| |].
        - intros c Hc. apply Hk. cbn. rewrite in_app_iff. left. assumption.
        - intros c Hc. go. assumption. }
      apply wok_seq; [|go].
      destruct a as [[| |]|]; [go|go|go|]. exfalso. apply Hl. reflexivity.
    Qed.
    Lemma wok_ptr_post q a cls p : kids_ok (NPtr q a cls p) -> wok (ptr_post E sg rec p).
    Proof.
      intros Hk. unfold ptr_post.
      destruct (Hk (KK KType) p) as [Hw Hkd]; [cbn; rewrite in_app_iff; cbn; auto|].
      destruct (resolve_kind _ _ _ Hkd) as (n & -> & Hn & Hty).
      destruct (kids_ok_of p Hw) as (n' & Hn' & Hkn & _). assert (n' = n) by congruence; subst n'.
      apply wok_seq; [go|].
      destruct (is_sig n) eqn:Hs; [apply wok_sig_post; assumption|]. apply Hrec; unfold mode_ok; auto.
    Qed.

    Lemma wok_int v neg : wok (int_out E v neg).
    Proof. unfold int_out, put. apply wok_str. destruct neg; oksapp. Qed.

    Lemma wok_dims dims : kind_at sg KInts dims -> wok (out_dims E sg dims).
    Proof.
      intros (l & Hl & Hf). unfold out_dims, resolve. rewrite Hl. cbn.
      assert (H1 : forall i, (exists v neg, nth_error sg i = Some (NInt v neg)) -> wok (one_dim E sg i)).
      { intros i (v & neg & Hi). unfold one_dim, resolve. rewrite Hi. cbn.
        apply wok_ite; intros _; [apply wok_ret|apply wok_int]. }
      destruct l as [|h l]; [go|]. inversion_clear Hf as [|? ? Hh Hfl].
      apply wok_seq; [apply H1; assumption|]. clear Hl.
      induction Hfl as [|i l Hi Hfl IH]; cbn [rest_dims]; [go|].
      apply wok_seq; [go|]. apply wok_seq; [apply H1; assumption|]. assumption.
    Qed.

    Lemma wok_tp tp : (forall c, In (KK KNodes, c) (opt_kid KNodes tp) -> wf sg Q c /\ kind_at sg (KK KNodes) c) ->
      wok (out_tp E rec tp).
    Proof.
      intros H. unfold out_tp. eapply (opt_rec OFull KNodes); [unfold mode_ok; auto|exact H|].
      intros c Hc. go. assumption.
    Qed.

    Lemma wok_nodes sep l : oks sep -> (forall c, In c l -> wf sg Q c) -> wok (out_nodes E rec sep l).
    Proof.
      intros Hsep Hl.
      assert (H1 : forall c, In c l -> wok (rec OFull KAny c)).
      { intros c Hc. specialize (Hl c Hc). apply Hrec; [unfold mode_ok; auto|assumption|].
        destruct (kids_ok_of _ Hl) as (n & Hn & _). exists n. auto. }
      destruct l as [|h l]; cbn; [go|]. apply wok_seq; [apply H1; left; reflexivity|].
      assert (H2 : forall c, In c l -> wok (rec OFull KAny c)) by (intros; apply H1; right; assumption).
      clear Hl H1. induction l as [|c l IH]; cbn; [go|].
      apply wok_seq; [apply wok_str; assumption|]. apply wok_seq; [apply H2; left; reflexivity|].
      apply IH. intros; apply H2; right; assumption.
    Qed.

    Lemma wok_pre n : is_type n = true -> local_ok okc n -> kids_ok n -> wok (out_pre E sg rec n).
    Proof.
      intros Ht Hl Hk. destruct n; try discriminate; cbn [out_pre].
      - go. apply wok_str, oks_lit. destruct k; vm_compute; reflexivity.
      - apply wok_fsig_pre; assumption.
      - apply wok_thunk_pre; assumption.
      - apply wok_ptr_pre; assumption.
      - go; [|kid]. apply wok_str, oks_lit. destruct t; vm_compute; reflexivity.
      - go. kid.
      - kid.
    Qed.
    Lemma wok_post n : is_type n = true -> kids_ok n -> wok (out_post E sg rec n).
    Proof.
      intros Ht Hk. destruct n; try discriminate; cbn [out_post]; go.
      - apply wok_fsig_post; assumption.
      - apply wok_thunk_post; assumption.
      - eapply wok_ptr_post; eassumption.
      - apply wok_dims. apply (Hk KInts). left; reflexivity.
      - kid.
    Qed.

    Lemma wok_var name sc ty : local_ok okc (NVar name sc ty) -> kids_ok (NVar name sc ty) ->
      wok (var_out E rec name sc ty).
    Proof.
      intros Hl Hk. unfold var_out.
      set (d := match sc with Some PrivateStatic => _ | _ => _ end).
      assert (Hd : wok (w_opt (fst d) (fun a => put E (a ++ L ": ")))).
      { apply wok_opt. intros a Ha. unfold put. apply wok_str. 
        destruct sc as [[]|]; cbn in Ha; try discriminate; injection Ha as <-; oksapp. }
      destruct d as [access is_static]. cbn in Hd. go; [assumption|].
      assert (Hty : forall t, ty = Some t -> wf sg Q t /\ kind_at sg (KK KType) t).
      { intros t ->. apply Hk. cbn. rewrite in_app_iff. right; left; reflexivity. }
      destruct name as [[h|]|]; [| |exfalso; apply Hl; reflexivity].
      - assert (Hq : wok (rec OFull KQual h)) by kid.
        assert (Hty' : forall t, (if negb (no_variable_type E) && negb (name_only E) then ty else None) = Some t ->
                                 wf sg Q t /\ kind_at sg (KK KType) t).
        { destruct (_ && _); [assumption|discriminate]. }
        apply wok_seq; [|apply wok_seq; [assumption|]].
        + apply wok_opt. intros t Ht. destruct (Hty' t Ht). go. apply Hrec; unfold mode_ok; auto.
        + apply wok_opt. intros t Ht. destruct (Hty' t Ht). apply Hrec; unfold mode_ok; auto.
      - go. apply wok_opt. intros t Ht. destruct (Hty t Ht). apply Hrec; unfold mode_ok; auto.
    Qed.

    Lemma wok_tpr sym offs a mp : kids_ok (NTpr sym offs a mp) -> wok (tpr_out E rec sym offs a).
    Proof.
      intros Hk. unfold tpr_out. apply wok_seq.
      { destruct offs; [|go]. go. }
      apply wok_seq.
      { apply (opt_rec OFull KSym); [unfold mode_ok; auto| |].
        - intros c Hc. apply Hk. exact Hc.
        - intros c Hc. go. assumption. }
      destruct offs as [|z zs]; [go|]. apply wok_seq; [apply wok_str; oksapp|].
      clear Hk. induction zs as [|y zs IH]; cbn [fold_right]; [go|]. apply wok_seq; [apply wok_str; oksapp|]. apply IH.
    Qed.

    Lemma wok_full n : local_ok okc n -> node_ok okc sg n -> kids_ok n -> wok (out_full E sg rec n).
    Proof.
      intros Hl Hok Hk.
      assert (Htype : is_type n = true -> wok (out_pre E sg rec n >> out_post E sg rec n)).
      { intros Ht. apply wok_seq; [apply wok_pre|apply wok_post]; assumption. }
      destruct n; cbn [out_full]; try (apply Htype; reflexivity); clear Htype.
      - apply wok_ite; intros _; apply wok_str; oksapp.
      - apply wok_seq; [go|]. destruct id as [h|h]; go; kid.
      - apply wok_seq; [apply wok_str; exact Hl|]. apply wok_tp. intros c Hc. apply Hk. exact Hc.
      - apply wok_seq; [|apply wok_tp; intros c Hc; apply Hk; exact Hc].
        apply wok_opt. intros o _. apply wok_str, oks_lit. destruct o; vm_compute; reflexivity.
      - apply wok_seq; [|apply wok_tp; intros c Hc; apply Hk; exact Hc].
        apply wok_str. apply oks_app; [apply oks_lit; vm_compute; reflexivity|exact Hl].
      - apply wok_seq; [go|]. apply wok_if; intros _. apply wok_str. oksapp.
      - apply wok_seq; [go|]. apply wok_seq; [apply wok_tp; intros c Hc; apply Hk; cbn; rewrite in_app_iff; auto|].
        apply wok_seq; [go|]. eapply (opt_rec OFull KType); [unfold mode_ok; auto| |].
        + intros c Hc. apply Hk. cbn. rewrite in_app_iff. auto.
        + auto.
      - apply wok_seq; [go|]. apply wok_seq; [|apply wok_tp; intros c Hc; apply Hk; cbn; rewrite in_app_iff; auto].
        eapply (opt_rec OFull KIdent); [unfold mode_ok; auto| |].
        + intros c Hc. apply Hk. cbn. rewrite in_app_iff. auto.
        + auto.
      - apply wok_str. oksapp.
      - apply wok_nodes; [oksapp|]. intros c Hc. apply (Hk (KK KAny)). cbn. apply in_map. assumption.
      - destruct (Hk KIdents components) as [Hw Hkd0]; [left; reflexivity|].
        assert (Hkd : kind_at sg (KK KNodes) components) by (destruct Hkd0 as (l0 & Hl0 & _); exists (NNodes l0); split; [exact Hl0|reflexivity]).
        destruct (resolve_kind _ _ _ Hkd) as (n & -> & Hn & Hty). destruct n; try discriminate.
        apply wok_nodes; [oksapp|]. intros c Hc.
        destruct (kids_ok_of _ Hw) as (n' & Hn' & Hkn & _).
        assert (n' = NNodes l) by congruence; subst n'. apply (Hkn (KK KAny)). cbn. apply in_map. assumption.
      - eapply wok_tpr; eassumption.
      - apply wok_int.
      - kid.
      - apply wok_seq; [go|]. apply wok_seq; [kid|].
        eapply (opt_rec OFull KQual); [unfold mode_ok; auto| |].
        + intros c Hc. apply Hk. cbn. auto.
        + intros c Hc. go. assumption.
      - kid.
      - apply wok_str. apply oks_app; [destruct k; oksapp|].
        apply oks_app; [exact Hl|]. destruct trunc; oksapp.
      - apply wok_var; assumption.
      - go; try kid. eapply (opt_rec OFull KQual); [unfold mode_ok; auto| |].
        + intros c Hc. apply Hk. cbn. rewrite in_app_iff. auto.
        + auto.
    Qed.
  End Node.

  Lemma out_ok sg : forall fuel l h k m, length l < fuel -> wf sg (fun i => In i l) h ->
    kind_at sg (KK k) h -> mode_ok m k -> wok (out fuel E sg m k h).
  Proof.
    induction fuel as [|fuel IH]; intros l h k m Hlen Hw Hkd Hm; [lia|].
    cbn [out]. destruct (resolve_kind _ _ _ Hkd) as (n & -> & Hn & Hty).
    pose (l' := remove Nat.eq_dec h l).
    destruct (wf_inv _ _ _ _ Hw) as (n' & Hn' & Hin & Hok & Hk).
    assert (n' = n) by congruence; subst n'.
    assert (Hlen' : length l' < fuel).
    { eapply Nat.lt_le_trans; [exact (remove_length_lt Nat.eq_dec l h Hin)|]. apply Nat.lt_succ_r. exact Hlen. }
    assert (Hrec : forall m k c, mode_ok m k -> wf sg (fun i => In i l') c -> kind_at sg (KK k) c ->
                                 wok (out fuel E sg m k c)) by (intros; eapply IH; eauto).
    assert (Hkids : kids_ok sg (fun i => In i l') n).
    { intros x c Hc. split; [|apply Hok; assumption].
      eapply wf_mono; [|eapply (wf_kid_avoid okc sg _ h n); eassumption].
      intros i [Hi Hne]. apply in_in_remove; assumption. }
    assert (Hpp : m <> OFull -> is_type n = true).
    { intros Hm'. destruct Hm as [Hm|[Hm|Hm]]; [contradiction|subst k; exact Hty|subst k].
      destruct n; cbn in Hty; try discriminate; reflexivity. }
    destruct m; cbn [out_node].
    - eapply wok_full; try eassumption. apply Hok.
    - eapply wok_pre; try eassumption; [apply Hpp; discriminate|apply Hok].
    - eapply wok_post; try eassumption; apply Hpp; discriminate.
  Qed.

  Lemma output_ok sg P k h : wfk okc sg P k h -> wok (output E sg k h).
  Proof.
    intros [Hw Hk]. unfold output. apply (out_ok sg _ (seq 0 (length sg))).
    - rewrite seq_length. lia.
    - eapply wf_mono; [|apply wf_bound; eassumption]. intros i [_ Hi]. apply in_seq. lia.
    - assumption.
    - left; reflexivity.
  Qed.
End Print.
