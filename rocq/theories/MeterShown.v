(** What is rendered while parsing: at most one rendering per character, and the work of each is
    paid for by the text it writes.  Proof infrastructure for [Work]. *)
From Verif Require Import Parser Wf Lex Cost Effort Meter.

(** A rendering whose visits are paid for by its bytes, of no more than the allowed nodes and bytes. *)
Definition ev_ok (E : env) (v : event) : Prop :=
  let nodes := N.of_nat (S (ev_nodes v)) in
  let bytes := N.of_nat (ev_bytes v) in
  (nodes <= e_nodes E + 1)%N /\ (bytes <= e_out E)%N /\
  (ev_visits v <= if ev_done v then 4 * nodes * (bytes + 1) else 4 * nodes * (bytes + nodes) + 1)%N.

(** ** The rendering of any store in which qualified names have identifiers as components *)
Definition quals_ok (sg : store) : Prop := forall h c, nth_error sg h = Some (NQual c) -> kind_at sg KIdents c.
Section Event.
  Variable E : env.
  Variable sg : store.
  Hypothesis Hq : quals_ok sg.
  Let D : Z := (4 * Z.of_nat (S (length sg)))%Z.
  Lemma eff_any k h : eff E D D (1 + D * Z.of_nat (S (length sg))) (out_ticking (S (length sg)) E sg OFull k h).
  Proof.
    eapply eff_le; [apply (eff_ticking E sg (fun _ => True))|..]; unfold D; auto; try lia.
    - intros h0 nd _ Hn. split; [auto|]. intros c ->. eapply Hq. exact Hn.
    - assert (Hc : (cm sg OFull h <= 4)%Z). { cbn [cm]. destruct (nth_error sg h) as [nd|]; [|lia]. destruct nd; cbn; lia. } nia.
  Qed.
  Lemma eff_event (w : (kind -> handle -> W) -> W) : eff E D D (1 + D * Z.of_nat (S (length sg))) (w (out_ticking (S (length sg)) E sg OFull)) ->
    (N.of_nat (length sg) <= e_nodes E)%N -> ev_ok E (run_event E w sg).
  Proof.
    intros H Hn. destruct (H (mkBuf [] (e_out E))) as [[H1 H2] H3]; [split; cbn; lia|]. unfold run_event.
    destruct (w _ _) as [b r]. cbn [fst snd] in *. unfold ev_ok. cbn [ev_nodes ev_bytes ev_visits ev_done].
    split; [lia|]. split; [exact H2|]. unfold paid, D in H3. cbn [b_cap b_bytes length] in H3.
    destruct r; nia.
  Qed.
  Lemma event_ident id : (N.of_nat (length sg) <= e_nodes E)%N -> ev_ok E (run_event E (fun out => out KIdent id) sg).
  Proof. apply eff_event. apply eff_any. Qed.
  Lemma event_scope a h b : (N.of_nat (length sg) <= e_nodes E)%N ->
    ev_ok E (run_event E (fun out => w_str E a >> out KSym h >> w_str E b) sg).
  Proof.
    apply eff_event. assert (D0 : (0 <= D)%Z) by (unfold D; lia).
    eapply eff_le; [eapply eff_seq; [apply (eff_str E D D0)|eapply eff_seq; [apply eff_any|apply (eff_str E D D0)]]|lia|unfold D; nia].
  Qed.
End Event.

(** ** The pass *)
Definition id_at (sg : store) (h : handle) : Prop := exists n, nth_error sg h = Some n /\ hkind KIdent n = true.
Definition inv (E : env) (s : st) : Prop :=
  (N.of_nat (length (s_store s)) <= e_nodes E)%N /\ quals_ok (s_store s) /\ Forall (id_at (s_store s)) (s_names s).
Definition room (s : st) : Z := Z.of_nat (length (ms_str (s_ms s))).
Definition count (c : meter) : Z := Z.of_nat (length (shown c)).
(** Given identifiers [ids] and [p] renderings to spare, all renderings of [m] are paid for; a result
    [a] comes with the identifiers [R a] and leaves [q a] to spare. *)
Definition sh {A} (E : env) (ids : list handle) (p : Z) (m : M A) (q : A -> Z) (R : A -> list handle) : Prop := forall s,
  inv E s -> Forall (id_at (s_store s)) ids ->
  let (r, c) := m s in
  Forall (ev_ok E) (shown c) /\
  match r with
  | Ok (a, s') => inv E s' /\ (forall h, id_at (s_store s) h -> id_at (s_store s') h) /\ Forall (id_at (s_store s')) (R a) /\
                  (count c + room s' + q a <= room s + p)%Z
  | _ => (count c <= room s + p)%Z
  end.
Notation none := (fun _ => []).
Notation keep n := (fun _ => n%Z).

Section Rules.
  Context {E : env}.
  Lemma room_pos s : (0 <= room s)%Z.
  Proof. unfold room. lia. Qed.
  Lemma sh_weak {A} ids0 p0 (m : M A) q0 R0 ids p q R : sh E ids0 p0 m q0 R0 -> incl ids0 ids -> (p0 <= p)%Z ->
    (forall a, q a <= q0 a + (p - p0))%Z -> (forall a, incl (R a) (R0 a ++ ids)) -> sh E ids p m q R.
  Proof.
    intros H Hi Hp Hq HR s Hs Hf. specialize (H s Hs). assert (Hf0 : Forall (id_at (s_store s)) ids0) by (rewrite Forall_forall in *; auto).
    specialize (H Hf0). destruct (m s) as [[[a s']|e| |] c]; destruct H as [H1 H2]; (split; [exact H1|]); try lia.
    destruct H2 as (H3 & H4 & H5 & H6). split; [exact H3|]. split; [exact H4|]. split; [|specialize (Hq a); lia].
    rewrite Forall_forall in *. intros h Hh. apply HR, in_app_iff in Hh. destruct Hh; auto.
  Qed.
  Lemma sh_bind {A B} ids0 p0 (m : M A) q0 R0 (f : A -> M B) ids p q R : sh E ids0 p0 m q0 R0 -> incl ids0 ids -> (p0 <= p)%Z ->
    (forall a, sh E (R0 a ++ ids) (p - p0 + q0 a) (f a) q R) -> sh E ids p (bind m f) q R.
  Proof.
    intros H Hi Hp Hf s Hs Hids. specialize (H s Hs). assert (Hids0 : Forall (id_at (s_store s)) ids0) by (rewrite Forall_forall in *; auto).
    specialize (H Hids0). unfold bind. destruct (m s) as [[[a s']|e| |] c]; destruct H as [H1 H2]; try (split; [exact H1|lia]).
    destruct H2 as (H3 & H4 & H5 & H6). specialize (Hf a s' H3).
    assert (Hids1 : Forall (id_at (s_store s')) (R0 a ++ ids)).
    { rewrite Forall_app. split; [exact H5|]. eapply Forall_impl; [|exact Hids]. exact H4. }
    specialize (Hf Hids1). destruct (f a s') as [r c']. destruct Hf as [F1 F2].
    cbn [m_add m_one shown app]. split; [apply Forall_app; auto|]. unfold count in *. cbn [m_add m_one shown app]. rewrite app_length.
    destruct r as [[b s2]|e| |]; try lia. destruct F2 as (F3 & F4 & F5 & F6). split; [exact F3|]. split; [auto|]. split; [exact F5|]. lia.
  Qed.
  Lemma sh_ret {A} (a : A) ids p q R : (q a <= p)%Z -> incl (R a) ids -> sh E ids p (ret a) q R.
  Proof.
    intros H HR s Hs Hi. unfold ret. split; [constructor|]. split; [exact Hs|]. split; [auto|]. split; [rewrite Forall_forall in *; auto|].
    unfold count. cbn [m_zero shown length]. lia.
  Qed.
  Lemma sh_fail {A} e ids p (q : A -> Z) R : (0 <= p)%Z -> sh E ids p (fail e) q R.
  Proof. intros H s Hs Hi. split; [constructor|]. unfold count. cbn [m_zero shown length]. pose proof (room_pos s). lia. Qed.
  Lemma sh_panic {A} ids p (q : A -> Z) R : (0 <= p)%Z -> sh E ids p panic q R.
  Proof. intros H s Hs Hi. split; [constructor|]. unfold count. cbn [m_zero shown length]. pose proof (room_pos s). lia. Qed.
  Lemma sh_nofuel {A} ids p (q : A -> Z) R : (0 <= p)%Z -> sh E ids p nofuel q R.
  Proof. intros H s Hs Hi. split; [constructor|]. unfold count. cbn [m_zero shown length]. pose proof (room_pos s). lia. Qed.
  Lemma sh_assoc {A B C} ids p (m : M A) (g : A -> M B) (f : B -> M C) q R : sh E ids p (bind m (fun x => bind (g x) f)) q R -> sh E ids p (bind (bind m g) f) q R.
  Proof.
    intros H s Hs Hi. specialize (H s Hs Hi). unfold bind in *. destruct (m s) as [[[a s']|e| |] c]; try exact H.
    destruct (g a s') as [[[b s2]|e| |] c']; cbn [m_add m_one shown app] in *; unfold count in *; cbn [m_add m_one shown app] in *; try exact H.
    destruct (f b s2) as [r c2]; cbn [m_add m_one shown app] in *. rewrite <- !app_assoc in *. exact H.
  Qed.
  Lemma sh_ret_bind {A B} (a : A) (f : A -> M B) ids p q R : sh E ids p (f a) q R -> sh E ids p (bind (ret a) f) q R.
  Proof. intros H s Hs Hi. specialize (H s Hs Hi). unfold bind, ret. destruct (f a s) as [r c]. exact H. Qed.
  Lemma sh_fail_bind {A B} e (f : A -> M B) ids p q R : (0 <= p)%Z -> sh E ids p (bind (fail e) f) q R.
  Proof. apply sh_fail. Qed.
  Lemma sh_panic_bind {A B} (f : A -> M B) ids p q R : (0 <= p)%Z -> sh E ids p (bind panic f) q R.
  Proof. apply sh_panic. Qed.
  Lemma sh_ok_or {A} (o : option A) e ids p q R : (0 <= p)%Z -> (forall a, o = Some a -> (q a <= p)%Z /\ incl (R a) ids) -> sh E ids p (ok_or o e) q R.
  Proof. intros Hp H. destruct o; cbn [ok_or]; [destruct (H a eq_refl); apply sh_ret; auto|apply sh_fail, Hp]. Qed.
  Lemma sh_ok_or_bind {A B} (o : option A) e (f : A -> M B) ids p q R : (0 <= p)%Z -> (forall a, o = Some a -> sh E ids p (f a) q R) -> sh E ids p (bind (ok_or o e) f) q R.
  Proof. intros Hp H. destruct o; cbn [ok_or]; [apply sh_ret_bind, H; reflexivity|apply sh_fail_bind, Hp]. Qed.

  (** *** Primitives *)
  Lemma sh_op_n {A} k (f : st -> res (A * st)) ids q R : (forall s, inv E s -> Forall (id_at (s_store s)) ids -> match f s with
      Ok (a, s') => inv E s' /\ (forall h, id_at (s_store s) h -> id_at (s_store s') h) /\ Forall (id_at (s_store s')) (R a) /\ (room s' + q a <= room s)%Z | _ => True end) ->
    sh E ids 0 (op_n k f) q R.
  Proof.
    intros H s Hs Hi. specialize (H s Hs Hi). unfold op_n. split; [constructor|]. unfold count. cbn [m_one shown length]. pose proof (room_pos s).
    destruct (f s) as [[a s']|e| |]; try lia. destruct H as (H1 & H2 & H3 & H4). repeat split; auto; try apply H1. lia.
  Qed.
  Lemma sh_op {A} (f : st -> res (A * st)) ids q R : (forall s, inv E s -> Forall (id_at (s_store s)) ids -> match f s with
      Ok (a, s') => inv E s' /\ (forall h, id_at (s_store s) h -> id_at (s_store s') h) /\ Forall (id_at (s_store s')) (R a) /\ (room s' + q a <= room s)%Z | _ => True end) ->
    sh E ids 0 (op f) q R.
  Proof. exact (sh_op_n 1 f ids q R). Qed.
  Lemma sh_get : sh E [] 0 get (keep 0) (fun s => s_names s).
  Proof. apply sh_op. intros s Hs _. cbn. repeat split; auto; try apply Hs. lia. Qed.
  Lemma sh_scan n : sh E [] 0 (scan n) (keep 0) none.
  Proof. intros s Hs _. unfold scan. cbn [shown]. unfold count. cbn [shown length]. repeat split; auto; try apply Hs. lia. Qed.
  Lemma sh_text : sh E [] 0 text (keep 0) none.
  Proof. apply sh_op. intros s Hs _. cbn. repeat split; auto; try apply Hs. lia. Qed.
  Lemma sh_len : sh E [] 0 len_chars (keep 0) none.
  Proof. apply sh_op. intros s Hs _. cbn. repeat split; auto; try apply Hs. lia. Qed.
  Lemma sh_res k h : sh E [] 0 (res_ k h) (keep 0) none.
  Proof. apply sh_op. intros s Hs _. unfold Parser.res_. destruct (resolve _ _ _); [|exact I]. repeat split; auto; try apply Hs. lia. Qed.
  Lemma sh_run w b : sh E [] 0 (run_w w b) (keep 0) none.
  Proof. apply sh_op. intros s Hs _. unfold Parser.run_w. destruct (w b) as [b' [[]|e| |]]; auto. repeat split; auto; try apply Hs. lia. Qed.
  Lemma sh_update f ids : (forall s, s_ms (f s) = s_ms s /\ s_store (f s) = s_store s /\ incl (s_names (f s)) (s_names s ++ ids)) -> sh E ids 0 (update f) (keep 0) none.
  Proof.
    intros H. apply sh_op. intros s (H1 & H2 & H3) Hi. destruct (H s) as (E1 & E2 & E3). cbv zeta. unfold inv, room. rewrite E1, E2.
    repeat split; auto; [|lia]. rewrite Forall_forall in *. intros h Hh. apply E3, in_app_iff in Hh. destruct Hh; auto.
  Qed.
  Lemma id_app sg t h : id_at sg h -> id_at (sg ++ t) h.
  Proof. intros (n & Hn & Hk). exists n. split; [|exact Hk]. rewrite nth_error_app1; [exact Hn|]. apply nth_error_Some. congruence. Qed.
  Lemma quals_app sg n : quals_ok sg -> (forall c, n = NQual c -> kind_at sg KIdents c) -> quals_ok (sg ++ [n]).
  Proof.
    intros Hq Hn h c Hh. assert (Hk : kind_at sg KIdents c).
    { destruct (Nat.lt_ge_cases h (length sg)) as [Hl|Hl].
      - rewrite nth_error_app1 in Hh by exact Hl. eapply Hq. exact Hh.
      - rewrite nth_error_app2 in Hh by exact Hl. destruct (h - length sg) as [|[|x]]; cbn in Hh; try discriminate Hh. injection Hh as ->. apply Hn. reflexivity. }
    eapply kind_at_ext; [apply ext_app|exact Hk].
  Qed.
  Lemma sh_intern n : (forall c, n <> NQual c) -> sh E [] 0 (intern E n) (keep 0) (fun h => if is_ident n then [h] else []).
  Proof.
    intros Hn. apply sh_op_n. intros s (H1 & H2 & H3) _. unfold Parser.intern. destruct (N.ltb_spec (e_nodes E) (N.of_nat (length (s_store s) + 1))) as [Hl|Hl]; [exact I|].
    unfold inv, room, set_store. cbn [s_store s_ms s_names]. split; [|split; [intros; apply id_app; assumption|split; [|lia]]].
    - split; [rewrite app_length; cbn [length]; lia|]. split; [apply quals_app; [exact H2|intros c Hc; congruence]|].
      eapply Forall_impl; [|exact H3]. intros. apply id_app. assumption.
    - destruct (is_ident n) eqn:Hi; constructor; [|constructor]. exists n. split; [|exact Hi]. rewrite nth_error_app2, Nat.sub_diag by lia. reflexivity.
  Qed.
  Lemma sh_qual ids l : incl l ids -> sh E ids 0 (bind (intern E (NNodes l)) (fun c => intern E (NQual c))) (keep 0) none.
  Proof.
    intros Hl s Hs Hids. pose proof (sh_intern (NNodes l) ltac:(discriminate) s Hs ltac:(constructor)) as H. unfold bind.
    unfold intern, op_n at 1 in H. unfold intern at 1, op_n at 1. unfold Parser.intern at 1. unfold Parser.intern at 1 in H.
    destruct (N.ltb_spec (e_nodes E) (N.of_nat (length (s_store s) + 1))) as [Hc|Hc].
    { split; [constructor|]. unfold count. cbn [m_one shown length]. pose proof (room_pos s). lia. }
    destruct H as (_ & H3 & H4 & _ & H6). set (s1 := set_store _ s) in *. unfold intern, op_n, Parser.intern.
    destruct (N.ltb_spec (e_nodes E) (N.of_nat (length (s_store s1) + 1))) as [Hc1|Hc1].
    { split; [constructor|]. unfold count. cbn [m_add m_one shown length app]. pose proof (room_pos s). lia. }
    split; [constructor|]. destruct H3 as (I1 & I2 & I3). unfold inv, room, set_store. cbn [s_store s_ms s_names].
    split; [|split; [intros; apply id_app, H4; assumption|split; [constructor|]]].
    - split; [rewrite app_length; cbn [length]; lia|]. split.
      + apply quals_app; [exact I2|]. intros c [= <-]. exists l. split.
        * unfold s1, set_store. cbn [s_store]. rewrite nth_error_app2, Nat.sub_diag by lia. reflexivity.
        * rewrite Forall_forall in *. intros h Hh. apply H4, Hids, Hl, Hh.
      + eapply Forall_impl; [|exact I3]. intros. apply id_app. assumption.
    - unfold count, room in *. cbn [m_add m_one shown length app]. unfold s1, set_store. cbn [s_ms]. lia.
  Qed.
  Definition keeps (f : node -> node) : Prop := forall n, sim n (f n) /\ (forall c, f n = NQual c -> n = NQual c).
  Lemma sh_modify k h f : keeps f -> sh E [] 0 (modify k h f) (keep 0) none.
  Proof.
    intros Hf. apply sh_op. intros s (H1 & H2 & H3) _. unfold Parser.modify. destruct (resolve (s_store s) k h) as [n|] eqn:Hr; [|exact I].
    assert (Hn : nth_error (s_store s) h = Some n). { unfold resolve in Hr. destruct (nth_error (s_store s) h) as [m|]; [|discriminate]. destruct (hkind k m); [injection Hr as ->; reflexivity|discriminate]. }
    destruct (Hf n) as [Hs Hc].
    assert (Hid : forall x, id_at (s_store s) x -> id_at (upd (s_store s) h (f n)) x).
    { intros x Hx. exact (kind_at_upd (s_store s) h n (f n) (KK KIdent) x Hn Hs Hx). }
    unfold inv, room, set_store. cbn [s_store s_ms s_names]. split; [|split; [exact Hid|split; [constructor|lia]]].
    split; [rewrite upd_length; exact H1|]. split.
    - intros x c Hx. apply (kind_at_upd (s_store s) h n (f n) KIdents c Hn Hs). destruct (Nat.eq_dec x h) as [->|Hne].
      + rewrite (nth_upd_same _ _ _ _ Hn) in Hx. injection Hx as Hx. apply Hc in Hx. subst n. eapply H2. exact Hn.
      + rewrite nth_upd_other in Hx by exact Hne. eapply H2. exact Hx.
    - eapply Forall_impl; [|exact H3]. exact Hid.
  Qed.
  Lemma sh_render w : (forall sg, quals_ok sg -> (N.of_nat (length sg) <= e_nodes E)%N -> ev_ok E (run_event E w sg)) -> sh E [] 1 (render E w) (keep 0) none.
  Proof.
    intros Hw. unfold render. eapply (sh_bind [] 1 _ (keep 0) none).
    - intros s Hs _. unfold show_event. cbn [shown]. split; [constructor; [apply Hw; apply Hs|constructor]|]. split; [exact Hs|]. split; [auto|]. split; [constructor|].
      unfold count. cbn [shown length]. lia.
    - apply incl_refl.
    - lia.
    - intros _. eapply sh_bind; [apply sh_get|apply incl_refl|lia|]. intros s. eapply sh_bind; [apply sh_run|apply incl_nil_l|lia|]. intros b.
      unfold take_text. apply sh_ok_or; [lia|]. intros a _. split; [lia|apply incl_nil_l].
  Qed.
  (** *** Consuming *)
  Lemma sh_lift {A} (f : mstring -> mres A) q : (forall m, match f m with Ok (o, m') => (Z.of_nat (length (ms_str m')) + q o <= Z.of_nat (length (ms_str m)))%Z | _ => True end) ->
    sh E [] 0 (lift f) q none.
  Proof.
    intros H. apply sh_op. intros s Hs _. specialize (H (s_ms s)). unfold Parser.lift. destruct (f (s_ms s)) as [[o m']|e| |]; try exact I.
    unfold inv, room, set_ms. cbn [s_ms s_store s_names]. repeat split; auto; apply Hs.
  Qed.
  Lemma sh_eatif f : sh E [] 0 (eat_if f) (fun o => match o with Some _ => 1%Z | None => 0%Z end) none.
  Proof.
    apply sh_lift. intros m. unfold try_consume_char_if. destruct (ms_str m) as [|c r] eqn:Et; [rewrite Et; cbn; lia|].
    destruct (f c); [|rewrite Et; lia]. unfold ms_drop. destruct (_ <=? _); [|exact I]. cbn [ms_str length]. lia.
  Qed.
  Lemma sh_next e : sh E [] 0 (next_char e) (keep 1) none.
  Proof.
    unfold next_char. eapply (sh_bind [] 0 _ (fun o => match o with Some _ => 1%Z | None => 0%Z end)); [|apply incl_refl|lia|].
    - apply sh_lift. intros m. unfold try_consume. destruct (ms_str m) as [|c r] eqn:Et; [rewrite Et; cbn; lia|].
      unfold ms_drop. destruct (_ <=? _); [|exact I]. cbn [ms_str length]. lia.
    - intros [c|]; cbn [ok_or]; [apply sh_ret; [lia|apply incl_nil_l]|apply sh_fail; lia].
  Qed.
  Lemma sh_eat c : sh E [] 0 (eat_char c) (fun b => if b then 1%Z else 0%Z) none.
  Proof.
    unfold eat_char. change (lift (try_consume_char c)) with (eat_if (fun x => (x =? c)%N)).
    eapply sh_bind; [apply sh_eatif|apply incl_refl|lia|]. intros [x|]; apply sh_ret; cbn [is_some]; try apply incl_nil_l; lia.
  Qed.
  Lemma sh_eats p : sh E [] 0 (eat_str p) (fun b => if b then Z.of_nat (length p) else 0%Z) none.
  Proof.
    unfold eat_str. eapply (sh_bind [] 0 _ (fun o => match o with Some _ => Z.of_nat (length p) | None => 0%Z end)); [|apply incl_refl|lia|].
    - apply sh_lift. intros m. unfold try_consume_str. destruct (strip_prefix p _) as [r|] eqn:Et; [|lia].
      apply strip_length in Et. unfold ms_drop. destruct (_ <=? _); [|exact I]. cbn [ms_str]. lia.
    - intros [x|]; apply sh_ret; cbn [is_some]; try apply incl_nil_l; lia.
  Qed.
  Lemma sh_expect c e : sh E [] 0 (expect_char c e) (keep 1) none.
  Proof. unfold expect_char. eapply sh_bind; [apply sh_eat|apply incl_refl|lia|]. intros []; [apply sh_ret; [lia|apply incl_nil_l]|apply sh_fail; lia]. Qed.
  Lemma sh_expects p e : sh E [] 0 (expect_str p e) (keep (Z.of_nat (length p))) none.
  Proof. unfold expect_str. eapply sh_bind; [apply sh_eats|apply incl_refl|lia|]. intros []; [apply sh_ret; [lia|apply incl_nil_l]|apply sh_fail; lia]. Qed.
  Lemma sh_first l : sh E [] 0 (eat_first l) (keep 0) none.
  Proof.
    induction l as [|p l IH]; cbn [eat_first]; [apply sh_ret; [lia|apply incl_nil_l]|].
    eapply sh_bind; [apply sh_eats|apply incl_refl|lia|]. intros [].
    - apply sh_ret; [lia|apply incl_nil_l].
    - eapply sh_weak; [exact IH|apply incl_refl|lia|intros; lia|intros; apply incl_nil_l].
  Qed.
  Lemma sh_special l : sh E [] 0 (consume_special l) (keep 0) none.
  Proof.
    induction l as [|[p k] l IH]; cbn [consume_special]; [apply sh_ret; [lia|apply incl_nil_l]|].
    eapply sh_bind; [apply sh_eats|apply incl_refl|lia|]. intros [].
    - apply sh_ret; [lia|apply incl_nil_l].
    - eapply sh_weak; [exact IH|apply incl_refl|lia|intros; lia|intros; apply incl_nil_l].
  Qed.
  Lemma sh_bytes n : sh E [] 0 (lift (try_consume_n_bytes n)) (keep 0) none.
  Proof.
    apply sh_lift. intros m. unfold try_consume_n_bytes. destruct (split_bytes n _) as [[a b]|] eqn:Et; [|lia].
    apply split_length in Et. unfold ms_drop. destruct (_ <=? _); [|exact I]. cbn [ms_str]. lia.
  Qed.
  Lemma sh_2 : sh E [] 0 (lift try_consume_2_chars) (keep 0) none.
  Proof.
    apply sh_lift. intros m. unfold try_consume_2_chars. destruct (ms_str m) as [|c [|d r]] eqn:Et; try (rewrite Et; lia).
    unfold ms_drop. destruct (_ <=? _); [|exact I]. cbn [ms_str length]. lia.
  Qed.
End Rules.

(** ** Functions *)
Create HintDb ms.
#[export] Hint Resolve sh_scan sh_get sh_text sh_len sh_res sh_run sh_eatif sh_next sh_eat sh_eats sh_expect sh_expects sh_first sh_special sh_bytes sh_2 : ms.
Lemma keeps_quals f : keeps (node_quals f).
Proof. intros []; split; cbn; auto; intros; congruence. Qed.
Lemma keeps_append q : keeps (append_quals q).
Proof. apply keeps_quals. Qed.
Lemma keeps_set q : keeps (set_quals q).
Proof. apply keeps_quals. Qed.
Ltac kp := intros []; split; cbn; auto; intros; congruence.
Lemma keeps_class c : keeps (set_class c). Proof. kp. Qed.
Lemma keeps_tp c : keeps (set_template_params c). Proof. kp. Qed.
Lemma keeps_fc c : keeps (set_function_class c). Proof. kp. Qed.
Lemma keeps_target c : keeps (set_target c). Proof. kp. Qed.
Lemma keeps_name c : keeps (set_sym_name c). Proof. kp. Qed.
Lemma keeps_scope c : keeps (set_scope_index c). Proof. kp. Qed.
Lemma keeps_func c : keeps (set_func_name c). Proof. kp. Qed.
Lemma keeps_vcall c : keeps (set_vcall_offset c). Proof. kp. Qed.
#[export] Hint Resolve sh_modify keeps_append keeps_set keeps_class keeps_tp keeps_fc keeps_target keeps_name keeps_scope keeps_func keeps_vcall : ms.

Ltac inc := solve [apply incl_nil_l | apply incl_refl | intros ?x; cbn [app In]; rewrite ?in_app_iff; cbn [In]; rewrite ?in_app_iff; cbn [In]; intuition (subst; auto)].
Ltac lensz := repeat match goal with |- context [Z.of_nat (length ?l)] => let n := eval vm_compute in (Z.of_nat (length l)) in
  lazymatch n with Z0 => idtac | Zpos ?x => idtac end; progress change (Z.of_nat (length l)) with n end.
Ltac zz := cbv beta iota; try lia; lensz; lia.
Ltac fin := [> inc | zz | idtac].
Ltac upd ids := apply (sh_update _ ids); intros ?s; repeat match goal with |- context [if ?b then _ else _] => destruct b end;
  (split; [reflexivity|split; [reflexivity|cbn [s_names set_names set_fps]; inc]]).
Ltac s1 :=
  lazymatch goal with
  | |- sh _ _ _ (bind (bind _ _) _) _ _ => apply sh_assoc
  | |- sh _ _ _ (bind (intern _ (NNodes _)) (fun c => intern _ (NQual c))) _ _ => eapply sh_weak; [apply (sh_qual _ _ (incl_refl _))|inc|zz|intros; zz|intros; inc]
  | |- sh _ _ _ (bind (ret _) _) _ _ => apply sh_ret_bind
  | |- sh _ _ _ (bind (fail _) _) _ _ => apply sh_fail_bind; zz
  | |- sh _ _ _ (bind panic _) _ _ => apply sh_panic_bind; zz
  | |- sh _ _ _ (bind (ok_or _ _) _) _ _ => apply sh_ok_or_bind; [zz|let H := fresh in intros ? H; try discriminate H]
  | |- sh _ _ _ (bind (if ?b then _ else _) _) _ _ => destruct b
  | |- sh _ _ _ (bind (match ?x with _ => _ end) _) _ _ => destruct x
  | |- sh _ _ _ (bind (let x := _ in _) _) _ _ => cbv zeta
  | |- sh _ _ _ (bind (eat_char _) _) _ _ => eapply sh_bind; [apply sh_eat|inc|zz|intros []]
  | |- sh _ _ _ (bind (eat_str _) _) _ _ => eapply sh_bind; [apply sh_eats|inc|zz|intros []]
  | |- sh _ _ _ (bind (eat_if _) _) _ _ => eapply sh_bind; [apply sh_eatif|inc|zz|intros [?|]]
  | |- sh _ ?ids _ (bind (update _) _) _ _ => eapply sh_bind; [upd ids|inc|zz|intros ?]
  | |- sh _ _ _ (bind (intern _ _) _) _ _ => eapply sh_bind; [apply sh_intern; discriminate|inc|zz|intros ?; cbn [is_ident]]
  | |- sh _ _ _ (bind _ _) _ _ => eapply sh_bind; [solve [eauto 3 with ms]|inc|zz|intros ?]
  | |- sh _ _ _ (ret _) _ _ => apply sh_ret; [zz|inc]
  | |- sh _ _ _ (fail _) _ _ => apply sh_fail; zz
  | |- sh _ _ _ panic _ _ => apply sh_panic; zz
  | |- sh _ _ _ nofuel _ _ => apply sh_nofuel; zz
  | |- sh _ _ _ (ok_or _ _) _ _ => apply sh_ok_or; [zz|intros ? ?; split; [zz|inc]]
  | |- sh _ _ _ (let x := _ in _) _ _ => cbv zeta
  | |- sh _ _ _ (if ?b then _ else _) _ _ => destruct b
  | |- sh _ _ _ (match ?x with _ => _ end) _ _ => destruct x
  | |- sh _ _ _ (intern _ _) _ _ => eapply sh_weak; [apply sh_intern; discriminate|inc|zz|intros ?; zz|intros ?; cbn [is_ident]; inc]
  | |- sh _ ?ids _ (update _) _ _ => eapply sh_weak; [upd ids|inc|zz|intros ?; zz|intros ?; inc]
  | |- sh _ _ _ _ _ _ => eapply sh_weak; [solve [eauto 3 with ms]|inc|zz|intros ?; zz|intros ?; inc]
  end; cbn [app]; cbv beta iota.
Ltac ss := repeat s1.
Notation calm E m := (sh E [] 0 m (keep 0) none).
Lemma s_ext E : sh E [] 0 pointer_ext_qualifiers (keep 0) none.
Proof. unfold pointer_ext_qualifiers. ss. Qed.
Lemma s_loop E fuel c n : sh E [] 0 (number_loop fuel c n) (keep 0) none.
Proof. revert c n. induction fuel as [|fuel IH]; intros c n; cbn [number_loop]; ss. Qed.
#[export] Hint Resolve s_ext s_loop : ms.
Lemma s_number E : sh E [] 0 demangle_number (keep 0) none.
Proof. unfold demangle_number. ss. Qed.
#[export] Hint Resolve s_number : ms.
Lemma s_unsigned E : sh E [] 0 demangle_unsigned (keep 0) none.
Proof. unfold demangle_unsigned. ss. Qed.
Lemma s_signed E : sh E [] 0 demangle_signed (keep 0) none.
Proof. unfold demangle_signed. ss. Qed.
Lemma s_quals E : sh E [] 0 demangle_qualifiers (keep 0) none.
Proof. unfold demangle_qualifiers. ss. Qed.
Lemma s_cv E : sh E [] 0 demangle_pointer_cv_qualifiers (keep 0) none.
Proof. unfold demangle_pointer_cv_qualifiers. ss. Qed.
Lemma s_ref E : sh E [] 0 demangle_function_ref_qualifier (keep 0) none.
Proof. unfold demangle_function_ref_qualifier. ss. Qed.
Lemma s_cc E : sh E [] 0 demangle_calling_convention (keep 0) none.
Proof. unfold demangle_calling_convention. ss. Qed.
Lemma s_sc E : sh E [] 0 demangle_variable_storage_class (keep 0) none.
Proof. unfold demangle_variable_storage_class. ss. Qed.
Lemma s_throw E : sh E [] 0 demangle_throw_specification (keep 0) none.
Proof. unfold demangle_throw_specification. ss. Qed.
Lemma s_class E : sh E [] 0 demangle_function_class (keep 0) none.
Proof. unfold demangle_function_class. ss. Qed.
Lemma s_u32 E n e : sh E [] 0 (to_u32 n e) (keep 0) none.
Proof. unfold to_u32. ss. Qed.
Lemma s_i32 E n e : sh E [] 0 (to_i32 n e) (keep 0) none.
Proof. unfold to_i32. ss. Qed.
Lemma s_prim E : sh E [] 0 (demangle_primitive_type E) (keep 0) none.
Proof. unfold demangle_primitive_type, demangle_primitive_kind. ss. Qed.
Lemma s_char E : sh E [] 0 demangle_char_literal (keep 0) none.
Proof. unfold demangle_char_literal. ss. Qed.
#[export] Hint Resolve s_unsigned s_signed s_quals s_cv s_ref s_cc s_sc s_throw s_class s_u32 s_i32 s_prim s_char : ms.
Lemma s_wchar E : sh E [] 0 demangle_wchar_literal (keep 0) none.
Proof. unfold demangle_wchar_literal. ss. Qed.
#[export] Hint Resolve s_wchar : ms.
Lemma s_uid E qn : sh E [] 0 (unqualified_identifier qn) (keep 0) none.
Proof. unfold unqualified_identifier. ss. Qed.
Lemma s_syn_id E id : sh E [id] 0 (synthesize_from_id E id) (keep 0) none.
Proof. unfold synthesize_from_id. ss. Qed.
#[export] Hint Resolve s_uid s_syn_id : ms.
Lemma s_syn E n : sh E [] 0 (synthesize_from_name E n) (keep 0) none.
Proof. unfold synthesize_from_name. ss. Qed.
#[export] Hint Resolve s_syn : ms.
Lemma s_resolve E l : sh E [] 0 (resolve_names l) (keep 0) none.
Proof. induction l as [|h l IH]; cbn [resolve_names]; ss. Qed.
#[export] Hint Resolve s_resolve : ms.
Lemma s_mem E x : sh E [] 0 (memorize_string E x) (keep 0) none.
Proof.
  unfold memorize_string. ss.
Qed.
#[export] Hint Resolve s_mem : ms.
Lemma s_memid E h : sh E [] 1 (memorize_identifier E h) (keep 0) none.
Proof.
  unfold memorize_identifier. eapply sh_bind; [apply sh_render; intros; apply event_ident; assumption|inc|lia|]. intros t. ss.
Qed.
#[export] Hint Resolve s_memid : ms.

Section Knot.
  Variable E : env.
  Variable K : knot.
  Hypothesis Hparse : sh E [] 0 (k_parse K) (keep 1) none.
  Hypothesis Htype : forall m, sh E [] 0 (k_type K m) (keep 0) none.
  Hypothesis Htinst : forall b, sh E [] 0 (k_tinst K b) (keep 1) (fun h => [h]).
  Hint Resolve Hparse Htype Htinst : ms.
  Lemma s_string (m : bool) : sh E [] 0 (demangle_simple_string E m) (keep 0) none.
  Proof. unfold demangle_simple_string. ss. Qed.
  Hint Resolve s_string : ms.
  Lemma s_sname m : sh E [] 0 (demangle_simple_name E m) (keep 0) (fun h => [h]).
  Proof. unfold demangle_simple_name. ss. Qed.
  Lemma s_backref : sh E [] 0 demangle_back_ref_name (keep 0) (fun h => [h]).
  Proof.
    unfold demangle_back_ref_name. do 3 s1. apply sh_ok_or; [zz|]. intros h Hh. split; [zz|]. apply nth_error_In in Hh.
    intros x [<-|[]]. rewrite ?app_nil_r. exact Hh.
  Qed.
  Lemma s_anon : sh E [] 0 (demangle_anonymous_namespace_name E) (keep 0) (fun h => [h]).
  Proof. unfold demangle_anonymous_namespace_name. ss. Qed.
  Lemma s_local : sh E [] 0 (demangle_locally_scoped_name_piece E K) (keep 0) (fun h => [h]).
  Proof.
    unfold demangle_locally_scoped_name_piece. do 6 s1.
    all: try (eapply sh_bind; [apply sh_render; intros; apply event_scope; assumption|inc|zz|intros ?]).
    all: ss.
  Qed.
  Hint Resolve s_sname s_backref s_anon s_local : ms.
  Lemma s_piece : sh E [] 0 (demangle_name_scope_piece E K) (keep 0) (fun h => [h]).
  Proof. unfold demangle_name_scope_piece. ss. Qed.
  Hint Resolve s_piece : ms.
  Lemma s_scopes fuel acc : sh E acc 0 (scope_loop E K fuel acc) (keep 0) (fun l => l).
  Proof. revert acc. induction fuel as [|fuel IH]; intros acc; cbn [scope_loop]; ss. Qed.
  Hint Resolve s_scopes : ms.
  Lemma s_chain id : sh E [id] 0 (demangle_name_scope_chain E K id) (keep 0) none.
  Proof. unfold demangle_name_scope_chain. ss. Qed.
  Hint Resolve s_chain : ms.
  Lemma s_intrinsic c g : sh E [] 0 (translate_intrinsic c g) (keep 0) none.
  Proof. unfold translate_intrinsic. ss. Qed.
  Hint Resolve s_intrinsic : ms.
  Lemma s_group g : sh E [] 0 (demangle_function_identifier_code_group E g) (keep 0) (fun h => [h]).
  Proof. unfold demangle_function_identifier_code_group. ss. Qed.
  Hint Resolve s_group : ms.
  Lemma s_code : sh E [] 0 (demangle_function_identifier_code E) (keep 0) (fun h => [h]).
  Proof. unfold demangle_function_identifier_code. ss. Qed.
  Hint Resolve s_code : ms.
  Lemma s_utn m : sh E [] 0 (demangle_unqualified_type_name E K m) (keep 0) (fun h => [h]).
  Proof. unfold demangle_unqualified_type_name. ss. Qed.
  Lemma s_usn b : sh E [] 0 (demangle_unqualified_symbol_name E K b) (keep 0) (fun h => [h]).
  Proof. unfold demangle_unqualified_symbol_name. ss. Qed.
  Hint Resolve s_utn s_usn : ms.
  Lemma s_fqtn : sh E [] 0 (demangle_fully_qualified_type_name E K) (keep 0) none.
  Proof. unfold demangle_fully_qualified_type_name. ss. Qed.
  Lemma s_fqsn : sh E [] 0 (demangle_fully_qualified_symbol_name E K) (keep 0) none.
  Proof. unfold demangle_fully_qualified_symbol_name. ss. Qed.
  Hint Resolve s_fqtn s_fqsn : ms.
  Lemma s_custom : sh E [] 0 (demangle_custom_type E K) (keep 0) none.
  Proof. unfold demangle_custom_type. ss. Qed.
  Lemma s_tag : sh E [] 0 (demangle_class_type E K) (keep 0) none.
  Proof. unfold demangle_class_type. ss. Qed.
  Lemma s_params fuel acc : sh E [] 0 (params_loop K fuel acc) (keep 0) none.
  Proof. revert acc. induction fuel as [|fuel IH]; intros acc; cbn [params_loop]; ss. Qed.
  Hint Resolve s_custom s_tag s_params : ms.
  Lemma s_plist : sh E [] 0 (demangle_function_parameter_list E K) (keep 0) none.
  Proof. unfold demangle_function_parameter_list. ss. Qed.
  Hint Resolve s_plist : ms.
  Lemma s_fn b : sh E [] 0 (demangle_function_type E K b) (keep 0) none.
  Proof. unfold demangle_function_type. ss. Qed.
  Hint Resolve s_fn : ms.
  Lemma s_ptr : sh E [] 0 (demangle_pointer_type E K) (keep 0) none.
  Proof. unfold demangle_pointer_type. ss. Qed.
  Lemma s_mptr : sh E [] 0 (demangle_member_pointer_type E K) (keep 0) none.
  Proof. unfold demangle_member_pointer_type. ss. Qed.
  Lemma s_dims fuel r acc : sh E [] 0 (dims_loop E fuel r acc) (keep 0) none.
  Proof. revert r acc. induction fuel as [|fuel IH]; intros r acc; cbn [dims_loop]; ss. Qed.
  Hint Resolve s_ptr s_mptr s_dims : ms.
  Lemma s_arr : sh E [] 0 (demangle_array_type E K) (keep 0) none.
  Proof. unfold demangle_array_type. ss. Qed.
  Hint Resolve s_arr : ms.
  Lemma s_type m : sh E [] 0 (demangle_type E K m) (keep 0) none.
  Proof. unfold demangle_type. ss. Qed.
  Lemma s_offsets n : sh E [] 0 (read_offsets n) (keep 0) none.
  Proof. induction n as [|n IH]; cbn [read_offsets]; ss. Qed.
  Lemma s_tsym : sh E [] 0 (template_symbol E K) (keep 0) none.
  Proof. unfold template_symbol. ss. Qed.
  Hint Resolve s_offsets s_tsym : ms.
  Lemma s_arg : sh E [] 0 (template_arg E K) (keep 0) none.
  Proof. unfold template_arg. ss. Qed.
  Hint Resolve s_arg : ms.
  Lemma s_args fuel acc : sh E [] 0 (targs_loop E K fuel acc) (keep 0) none.
  Proof. revert acc. induction fuel as [|fuel IH]; intros acc; cbn [targs_loop]; ss. Qed.
  Hint Resolve s_args : ms.
  Lemma s_alist : sh E [] 0 (demangle_template_parameter_list E K) (keep 0) none.
  Proof. unfold demangle_template_parameter_list. ss. Qed.
  Hint Resolve s_alist : ms.
  Lemma s_tinst b : sh E [] 0 (demangle_template_instantiation_name E K b) (keep 1) (fun h => [h]).
  Proof. unfold demangle_template_instantiation_name. ss. Qed.

  (** ** Symbols *)
  Lemma s_var sc : sh E [] 0 (demangle_variable_encoding E K sc) (keep 0) none.
  Proof. unfold demangle_variable_encoding. ss. Qed.
  Lemma s_adjust fc : sh E [] 0 (this_adjust fc) (keep 0) none.
  Proof. unfold this_adjust. ss. Qed.
  Hint Resolve s_adjust : ms.
  Lemma s_fenc : sh E [] 0 (demangle_function_encoding E K) (keep 0) none.
  Proof. unfold demangle_function_encoding. ss. Qed.
  Hint Resolve s_var s_fenc : ms.
  Lemma s_enc h : sh E [] 0 (demangle_encoded_symbol E K h) (keep 0) none.
  Proof. unfold demangle_encoded_symbol. ss. Qed.
  Hint Resolve s_enc : ms.
  Lemma s_decl : sh E [] 0 (demangle_declarator E K) (keep 0) none.
  Proof. unfold demangle_declarator. ss. Qed.
  Hint Resolve s_decl : ms.
  Lemma s_stab k : sh E [] 0 (demangle_special_table_symbol_node E K k) (keep 0) none.
  Proof. unfold demangle_special_table_symbol_node. ss. Qed.
  Lemma s_guard b : sh E [] 0 (demangle_local_static_guard E K b) (keep 0) none.
  Proof. unfold demangle_local_static_guard. ss. Qed.
  Lemma s_untyped n : sh E [] 0 (demangle_untyped_variable E K n) (keep 0) none.
  Proof. unfold demangle_untyped_variable. ss. Qed.
  Lemma s_base : sh E [] 0 (demangle_rtti_base_class_descriptor_node E K) (keep 0) none.
  Proof. unfold demangle_rtti_base_class_descriptor_node. ss. Qed.
  Lemma s_stub b : sh E [] 0 (demangle_init_fini_stub E K b) (keep 0) none.
  Proof. unfold demangle_init_fini_stub. ss. Qed.
  Lemma s_vcall : sh E [] 0 (demangle_vcall_thunk_node E K) (keep 0) none.
  Proof. unfold demangle_vcall_thunk_node. ss. Qed.
  Lemma s_wide fuel len tr ob : sh E [] 0 (wide_loop E fuel len tr ob) (keep 0) none.
  Proof. revert len ob. induction fuel as [|fuel IH]; intros len ob; cbn [wide_loop]; ss. Qed.
  Lemma s_narrow fuel acc : sh E [] 0 (narrow_loop fuel acc) (keep 0) none.
  Proof. revert acc. induction fuel as [|fuel IH]; intros acc; cbn [narrow_loop]; ss. Qed.
  Lemma s_nout l sz num i n tr ob : sh E [] 0 (narrow_out E l sz num i n tr ob) (keep 0) none.
  Proof. revert i ob. induction n as [|n IH]; intros i ob; cbn [narrow_out]; ss. Qed.
  Hint Resolve s_stab s_guard s_untyped s_base s_stub s_vcall s_wide s_narrow s_nout : ms.
  Lemma s_strlit : sh E [] 0 (demangle_string_literal E) (keep 0) none.
  Proof. unfold demangle_string_literal, take_text. ss. Qed.
  Lemma s_rtd : sh E [] 0 (rtti_type_descriptor E K) (keep 0) none.
  Proof. unfold rtti_type_descriptor. ss. Qed.
  Hint Resolve s_strlit s_rtd : ms.
  Lemma s_spec : sh E [] 0 (demangle_special_intrinsic E K) (keep 0) none.
  Proof. unfold demangle_special_intrinsic. ss. Qed.
  Lemma s_md5 : sh E [] 0 (demangle_md5_name E) (keep 1) none.
  Proof. unfold demangle_md5_name. ss. Qed.
  Lemma s_typeinfo : sh E [] 0 (demangle_typeinfo_name E K) (keep 1) none.
  Proof. unfold demangle_typeinfo_name. ss. Qed.
  Hint Resolve s_spec s_md5 s_typeinfo : ms.
  Lemma s_parse : sh E [] 0 (do_parse E K) (keep 1) none.
  Proof. unfold do_parse. ss. Qed.
End Knot.
Lemma s_knot E fuel : sh E [] 0 (k_parse (knot_of E fuel)) (keep 1) none /\ (forall m, sh E [] 0 (k_type (knot_of E fuel) m) (keep 0) none) /\
  (forall b, sh E [] 0 (k_tinst (knot_of E fuel) b) (keep 1) (fun h => [h])).
Proof.
  induction fuel as [|fuel (H1 & H2 & H3)]; cbn [knot_of k_parse k_type k_tinst].
  - split; [|split; intros]; apply sh_nofuel; lia.
  - split; [|split; intros]; [apply s_parse|apply s_type|apply s_tinst]; assumption.
Qed.
