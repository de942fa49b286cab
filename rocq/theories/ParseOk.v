(** The parser never panics, always terminates within its fuel, and builds well-formed
    graphs over permitted characters.  Proof infrastructure. *)
From Verif Require Import Parser Utf8 Wf PrintOk Lex Number.

(** When the parser may report [Io UnexpectedEof]: some suffix of the input that starts a
    (nested) symbol -- the whole input, or what follows a scope discriminator ['?' number '?'] --
    starts with neither ['?'] nor ['.']. *)
Definition not_symbol_start (t : str) : Prop :=
  (forall r, t <> ch "?" :: r) /\ (forall r, t <> ch "." :: r).
Definition scope_discriminator (q : str) : Prop :=
  exists p d v, q = p ++ L "?" ++ d ++ L "?" /\ num_text d v.
Definition eof_possible (s0 : str) : Prop :=
  exists p t, s0 = p ++ t /\ (p = [] \/ scope_discriminator p) /\ not_symbol_start t.

Definition okerr (s0 : str) (e : error) : Prop :=
  e <> Utf8Error /\ (e = Io UnexpectedEof -> eof_possible s0) /\ unused e = false.

Section Ok.
  Variable okc : N -> Prop.
  Hypothesis Hascii : forall c, (c < 128)%N -> okc c.
  Hypothesis Hscalar : forall c, okc c -> scalar c = true.
  Variable E : env.
  Variable s0 : str.
  Hypothesis Hs0 : oks okc s0.
  Notation oks := (oks okc).
  Notation wfk := (wfk okc).
  Notation wf := (wf okc).
  Notation okerr := (okerr s0).
  Notation wp := (wp okerr).

  Lemma okerr_other e : e <> Utf8Error -> e <> Io UnexpectedEof -> unused e = false -> okerr e.
  Proof. intros H1 H2 H. split; [assumption|]. split; [|assumption]. intros H3; contradiction. Qed.
  Ltac oke := apply okerr_other; first [discriminate|reflexivity].
  Ltac oke' := apply okerr_other.

  Record inv (P : handle -> Prop) (s : st) : Prop := {
    i_chars : chars_ok s;
    i_suf : exists p, s0 = p ++ tx s;
    i_nodes : (N.of_nat (length (s_store s)) <= e_nodes E)%N;
    i_fresh : forall i, length (s_store s) <= i -> P i;
    i_fps : Forall (fun h => wfk (s_store s) P KType h) (s_fps s);
    i_names : Forall (fun h => P h /\ exists nm, nth_error (s_store s) h = Some (NNamed None nm) /\ oks nm)
                     (s_names s)
  }.

  Record step (P : handle -> Prop) (n : nat) (s s' : st) : Prop := {
    st_inv : inv P s';
    st_ext : ext (s_store s) (s_store s');
    st_len : length (tx s') + n <= length (tx s)
  }.

  Lemma inv_suf_oks P s a b : inv P s -> tx s = a ++ b -> oks a.
  Proof.
    intros Hi Ht. destruct (i_suf _ _ Hi) as [p Hp]. rewrite Ht in Hp. pose proof Hs0 as H. rewrite Hp in H.
    apply Forall_app in H. destruct H as [_ H]. apply Forall_app in H. apply H.
  Qed.

  Lemma inv_at P s p t : inv P s -> tx s = p ++ t -> inv P (st_at t s).
  Proof.
    intros [H1 [q H2] H3 H4 H5 H6] Ht. split; try assumption.
    - apply chars_ok_st_at.
    - exists (q ++ p). rewrite tx_st_at, <- app_assoc, <- Ht. assumption.
  Qed.
  Lemma step_adv P n s s' : inv P s -> adv n s s' -> step P n s s'.
  Proof.
    intros Hi Ha. pose proof (adv_len _ _ _ Ha) as Hl. destruct Ha as (p & t & Hp & -> & Hn). split.
    - eapply inv_at; eassumption.
    - apply ext_refl.
    - assumption.
  Qed.
  Lemma step_refl P s : inv P s -> step P 0 s s.
  Proof. intros H. split; [assumption|apply ext_refl|lia]. Qed.
  Lemma step_le P n m s s' : m <= n -> step P n s s' -> step P m s s'.
  Proof. intros H [H1 H2 H3]. split; auto. lia. Qed.
  Lemma step_trans P n m a b c : step P n a b -> step P m b c -> step P (n + m) a c.
  Proof. intros [H1 H2 H3] [H4 H5 H6]. split; [assumption|eapply ext_trans; eassumption|lia]. Qed.

  Lemma inv_mono (P Q : handle -> Prop) s : (forall i, P i -> Q i) -> inv P s -> inv Q s.
  Proof.
    intros H [H1 H2 H3 H4 H5 H6]. split; auto.
    - eapply Forall_impl; [|eassumption]. intros h Hh. eapply wfk_mono; eassumption.
    - eapply Forall_impl; [|eassumption]. intros h [Hh Hx]. auto.
  Qed.

  (** Lexical functions. *)
  Lemma wp_lex {A} (n : A -> nat) (m : M A) P s : lex okerr n m -> inv P s ->
    wp m (fun a s' => step P (n a) s s' /\ adv (n a) s s') s.
  Proof.
    intros Hl Hi. eapply wp_mono; [apply Hl, (i_chars _ _ Hi)|]. intros a s' Ha.
    split; [apply step_adv; assumption|assumption].
  Qed.

  Lemma wp_lex_at {A} (n : A -> nat) (m : M A) P s : lex_at okerr n m s -> inv P s ->
    wp m (fun a s' => step P (n a) s s' /\ adv (n a) s s') s.
  Proof.
    intros Hl Hi. eapply wp_mono; [apply Hl, (i_chars _ _ Hi)|]. intros a s' Ha.
    split; [apply step_adv; assumption|assumption].
  Qed.

  Lemma adv_store n s s' : adv n s s' -> s_store s' = s_store s /\ s_fps s' = s_fps s /\ s_names s' = s_names s.
  Proof. intros (p & t & _ & -> & _). auto. Qed.

  (** ** Nodes *)
  Definition kid_ok (sg : store) P (xc : xkind * handle) : Prop := wf sg P (snd xc) /\ kind_at sg (fst xc) (snd xc).

  Lemma wfk_mk sg (P : handle -> Prop) k h n : nth_error sg h = Some n -> P h -> local_ok okc n ->
    Forall (kid_ok sg P) (kids n) -> hkind k n = true -> wfk sg P k h.
  Proof.
    intros Hn HP Hl Hk Hkd. rewrite Forall_forall in Hk. split.
    - econstructor; eauto.
      + split; [assumption|]. intros x c Hc. apply (Hk _ Hc).
      + intros x c Hc. apply (Hk _ Hc).
    - exists n. auto.
  Qed.
  Lemma wfk_kids sg P k h n : wfk sg P k h -> nth_error sg h = Some n ->
    Forall (kid_ok sg (fun i => P i /\ i <> h)) (kids n) /\ local_ok okc n /\ P h.
  Proof.
    intros [Hw _] Hn. destruct (wf_inv _ _ _ _ Hw) as (n' & Hn' & HP & Hok & Hk).
    assert (n' = n) by congruence. subst n'. split; [|split; [apply Hok|assumption]].
    apply Forall_forall. intros [x c] Hc. split; [|apply Hok, Hc].
    eapply wf_kid_avoid; eassumption.
  Qed.
  Lemma kid_ok_mono sg (P Q : handle -> Prop) xc : (forall i, P i -> Q i) -> kid_ok sg P xc -> kid_ok sg Q xc.
  Proof. intros H [H1 H2]. split; [eapply wf_mono; eassumption|assumption]. Qed.
  Lemma kid_ok_ext a b P xc : ext a b -> kid_ok a P xc -> kid_ok b P xc.
  Proof. intros H [H1 H2]. split; [eapply wf_ext; eassumption|eapply kind_at_ext; eassumption]. Qed.
  Lemma wfk_kind sg P k k' h n : wfk sg P k h -> nth_error sg h = Some n -> hkind k' n = true -> wfk sg P k' h.
  Proof. intros [H1 _] Hn Hk. split; [assumption|]. exists n. auto. Qed.
  Lemma wfk_node sg P k h : wfk sg P k h -> exists n, nth_error sg h = Some n /\ hkind k n = true.
  Proof. intros [_ H]. exact H. Qed.
  Lemma wfk_any sg P k h : wfk sg P k h -> wfk sg P KAny h.
  Proof. intros [H1 (n & Hn & _)]. split; [assumption|]. exists n. auto. Qed.
  Lemma wfk_bound sg P k h : wfk sg P k h -> wfk sg (fun i => P i /\ i < length sg) k h.
  Proof. intros [H1 H2]. split; [apply wf_bound; assumption|assumption]. Qed.
  Lemma wfk_lt sg P k h : wfk sg P k h -> h < length sg.
  Proof. intros [H _]. eapply wf_lt; eassumption. Qed.
  Lemma wfk_P sg (P : handle -> Prop) k h : wfk sg P k h -> P h.
  Proof. intros [H _]. destruct H. assumption. Qed.

  (** The tables do not reach a node interned after them. *)
  Lemma inv_avoid P s s' j : inv P s -> inv P s' -> ext (s_store s) (s_store s') ->
    s_fps s' = s_fps s -> s_names s' = s_names s -> length (s_store s) <= j -> j < length (s_store s') ->
    inv (fun i => P i /\ i <> j) s'.
  Proof.
    intros Hi Hi' He Hf Hn Hj Hj'. destruct Hi' as [H1 H2 H3 H4 H5 H6]. split; try assumption.
    - intros i Hl. split; [auto|lia].
    - rewrite Hf. eapply Forall_impl; [|apply (i_fps _ _ Hi)]. intros h Hh.
      eapply wfk_ext; [eassumption|]. eapply wfk_mono; [|apply wfk_bound, Hh]. cbn. intros i [Ha Hb]. split; [assumption|lia].
    - rewrite Hn. eapply Forall_impl; [|apply (i_names _ _ Hi)]. intros h (Ha & nm & Hb & Hc).
      split; [split; [assumption|]|].
      + intros ->. assert (j < length (s_store s)) by (apply nth_error_Some; congruence). lia.
      + exists nm. auto.
  Qed.

  (** [upd] keeps the invariant. *)
  Lemma inv_upd P s j n n' : inv P s -> nth_error (s_store s) j = Some n -> hkind KNamed n = false ->
    (forall k h, wfk (s_store s) P k h -> wfk (upd (s_store s) j n') P k h) ->
    inv P (set_store (upd (s_store s) j n') s).
  Proof.
    intros [H1 H2 H3 H4 H5 H6] Hj Hnn Hw. split; try assumption; cbn [set_store s_store s_fps s_names].
    - rewrite upd_length. assumption.
    - rewrite upd_length. assumption.
    - eapply Forall_impl; [|exact H5]. intros h Hh. apply Hw, Hh.
    - eapply Forall_impl; [|exact H6]. intros h (Ha & nm & Hb & Hc). split; [assumption|]. exists nm.
      split; [|assumption]. rewrite nth_upd_other; [assumption|]. intros ->.
      assert (n = NNamed None nm) by congruence. subst n. discriminate Hnn.
  Qed.
  Lemma upd_same sg j n : nth_error sg j = Some n -> upd sg j n = sg.
  Proof.
    revert j. induction sg as [|m sg IH]; intros [|j] H; cbn in *; try discriminate.
    - congruence.
    - rewrite IH by assumption. reflexivity.
  Qed.

  Lemma wp_modify k j f (Q : unit -> st -> Prop) s n : nth_error (s_store s) j = Some n -> hkind k n = true ->
    Q tt (set_store (upd (s_store s) j (f n)) s) -> wp (modify k j f) Q s.
  Proof. intros Hn Hk HQ. unfold Lex.wp, modify, resolve. rewrite Hn, Hk. exact HQ. Qed.
  Lemma wp_res k h (Q : node -> st -> Prop) s n : nth_error (s_store s) h = Some n -> hkind k n = true ->
    Q n s -> wp (res_ k h) Q s.
  Proof. intros Hn Hk HQ. unfold Lex.wp, res_, resolve. rewrite Hn, Hk. exact HQ. Qed.

  (** Interning. *)
  Record interned (P : handle -> Prop) (n : node) (s : st) (h : handle) (s' : st) : Prop := {
    in_step : step P 0 s s';
    in_nth : nth_error (s_store s') h = Some n;
    in_P : P h;
    in_eq : h = length (s_store s);
    in_len : length (s_store s') = S (length (s_store s));
    in_fps : s_fps s' = s_fps s;
    in_names : s_names s' = s_names s;
    in_tx : tx s' = tx s
  }.
  Lemma wp_intern P n s : inv P s -> wp (intern E n) (fun h s' => interned P n s h s') s.
  Proof.
    intros Hi. unfold Lex.wp, intern.
    destruct (e_nodes E <? N.of_nat (length (s_store s) + 1))%N eqn:Hlt; [oke|].
    apply N.ltb_ge in Hlt. split; cbn [set_store s_store s_fps s_names]; try reflexivity.
    - destruct Hi as [H1 H2 H3 H4 H5 H6]. split; cbn [set_store s_store s_fps s_names].
      + split; cbn [set_store s_store s_fps s_names]; try assumption.
        * rewrite app_length. cbn. assumption.
        * intros i. rewrite app_length. cbn. intros. apply H4. lia.
        * eapply Forall_impl; [|exact H5]. intros h Hh. eapply wfk_ext; [apply ext_app|assumption].
        * eapply Forall_impl; [|exact H6]. intros h (Ha & nm & Hb & Hc). split; [assumption|].
          exists nm. split; [apply ext_app; assumption|assumption].
      + apply ext_app.
      + change (tx (set_store (s_store s ++ [n]) s)) with (tx s). lia.
    - apply nth_app_last.
    - apply (i_fresh _ _ Hi). lia.
    - rewrite app_length. cbn. lia.
  Qed.

  (** ** Tactics *)
  Ltac brk1 :=
    match goal with
    | H : _ /\ _ |- _ => destruct H
    | H : exists _, _ |- _ => destruct H
    | H : step _ _ _ _ |- _ => destruct H
    | H : interned _ _ _ _ _ |- _ => destruct H
    | H : adv _ _ _ |- _ =>
        let H1 := fresh "Hst" in let H2 := fresh "Hfp" in let H3 := fresh "Hnm" in
        pose proof (adv_store _ _ _ H) as (H1 & H2 & H3); clear H
    end.
  Ltac brk := repeat (brk1; cbv beta iota in *).
  Ltac sext :=
    match goal with
    | |- ext ?a ?a => apply ext_refl
    | H : ext ?a ?b |- ext ?a ?b => exact H
    | H : ext ?x ?b |- ext ?a ?b => eapply (ext_trans a x b); [clear H; sext|exact H]
    end.
  Ltac elen := repeat match goal with H : ext ?a ?b |- _ =>
    lazymatch goal with _ : length a <= length b |- _ => fail | _ => pose proof (ext_length a b H) end end.
  Ltac lens := repeat match goal with H : step ?P ?n ?a ?b |- _ =>
    lazymatch goal with _ : length (tx b) + n <= length (tx a) |- _ => fail
    | _ => let L := fresh "Ln" in pose proof (st_len P n a b H) as L; cbv beta iota in L end end.
  Ltac elift :=
    match goal with
    | |- Wf.wfk _ _ _ _ _ => first [eassumption | eapply wfk_ext; [|eassumption]; sext]
    | |- nth_error _ _ = Some _ => first [eassumption | (match goal with H : nth_error ?a ?h = Some ?n |- nth_error ?b ?h = Some _ =>
           apply (fun X : ext a b => X h n H) end); sext]
    end.
  (* kids of a concrete node *)
  Ltac kidsolve :=
    cbn [kids opt_kid fsig_kids fs_ret fs_params app map fst snd];
    repeat first [apply Forall_nil | apply Forall_cons];
    try (match goal with |- kid_ok ?sg ?P (KK ?k, ?h) => change (wfk sg P k h); first [elift | eapply wfk_any; elift] end).
  Ltac mkwf := eapply wfk_mk; [elift | assumption | cbn [local_ok]; try exact I; try discriminate | kidsolve | try reflexivity].
  (* run a sub-computation with lemma L *)
  Ltac sinv := first [eassumption | eapply st_inv; eassumption].
  Tactic Notation "run" uconstr(L) := first [apply wp_bind | idtac]; eapply wp_mono; [eapply L; try sinv; try lia|]; cbv beta iota.
  Tactic Notation "lexr" uconstr(L) := first [apply wp_bind | idtac]; eapply wp_mono; [eapply wp_lex; [apply L; try oke|sinv]|]; cbv beta iota.
  Tactic Notation "lexa" uconstr(L) := first [apply wp_bind | idtac]; eapply wp_mono; [eapply wp_lex_at; [eapply L; try eassumption|sinv]|]; cbv beta iota.
  Ltac mkstep := split; [try assumption | try sext | try lia].

  (** ** Rendering *)
  Lemma wp_run_w w b s : wok okc E w -> bok okc E b -> wp (run_w w b) (fun b' s' => s' = s /\ bok okc E b') s.
  Proof.
    intros Hw Hb. specialize (Hw b Hb). unfold Lex.wp, run_w. destruct (w b) as [b' r]. cbn [fst snd] in Hw.
    destruct Hw as [_ Hw]. destruct r as [[]|e| |].
    - split; [reflexivity|apply Hw].
    - subst e. oke.
    - contradiction.
    - contradiction.
  Qed.
  Lemma wp_take_text b s : bok okc E b -> wp (take_text b) (fun t s' => s' = s /\ oks t) s.
  Proof.
    intros Hb. destruct (bok_decode okc Hscalar E b Hb) as (t & Ht & Hoks & _).
    unfold take_text. rewrite Ht. split; auto.
  Qed.
  Lemma wp_render w s : wok okc E (w (s_store s)) -> wp (render w) (fun t s' => s' = s /\ oks t) s.
  Proof.
    intros Hw. unfold render. apply wp_bind, wp_get, wp_bind.
    eapply wp_mono; [apply wp_run_w; [exact Hw|apply bok_empty]|]. intros b s' [-> Hb].
    apply wp_take_text. assumption.
  Qed.

  (** ** Names *)
  Lemma wp_resolve_names P l : forall s, inv P s -> incl l (s_names s) ->
    wp (resolve_names l) (fun _ s' => s' = s) s.
  Proof.
    induction l as [|h l IH]; intros s Hi Hl; cbn [resolve_names]; [apply wp_ret; reflexivity|].
    pose proof (i_names _ _ Hi) as Hn. rewrite Forall_forall in Hn.
    destruct (Hn h) as (_ & nm & Hnth & _); [apply Hl; left; reflexivity|].
    apply wp_bind. eapply wp_res; [eassumption|reflexivity|]. apply wp_bind.
    eapply wp_mono; [apply IH; [assumption|intros x Hx; apply Hl; right; assumption]|].
    intros r s' ->. apply wp_ret. reflexivity.
  Qed.

  Lemma wp_memorize_string P nm s : inv P s -> oks nm ->
    wp (memorize_string E nm) (fun _ s' => step P 0 s s' /\ tx s' = tx s /\ s_fps s' = s_fps s) s.
  Proof.
    intros Hi Hnm. unfold memorize_string. apply wp_bind, wp_get. apply wp_if; intros _.
    { apply wp_ret. split; [apply step_refl; assumption|auto]. }
    apply wp_bind. eapply wp_mono; [apply (wp_resolve_names P); [assumption|apply incl_refl]|].
    intros known s' ->. apply wp_if; intros _.
    { apply wp_ret. split; [apply step_refl; assumption|auto]. }
    run (wp_intern P). intros h s' Hin.
    destruct Hin as [[Hi' He Hl] Hnth HP Heq Hlen Hf Hn Ht]. unfold Lex.wp.
    split; [|split; [exact Ht|exact Hf]]. split; [|exact He|exact Hl].
    destruct Hi' as [H1 H2 H3 H4 H5 H6]. split; try assumption. cbn [s_names set_names s_store].
    apply Forall_app. split; [assumption|]. constructor; [|constructor]. split; [assumption|]. exists nm. auto.
  Qed.
  Lemma wp_memorize_identifier P id s : inv P s -> wfk (s_store s) P KIdent id ->
    wp (memorize_identifier E id) (fun _ s' => step P 0 s s' /\ tx s' = tx s /\ s_fps s' = s_fps s) s.
  Proof.
    intros Hi Hw. unfold memorize_identifier. apply wp_bind.
    eapply wp_mono; [apply wp_render; apply (output_ok okc Hascii E _ P); exact Hw|].
    intros nm s' [-> Hnm]. apply wp_memorize_string; assumption.
  Qed.

  (** Text up to a character. *)
  Lemma wp_consume_bytes P n s : inv P s ->
    wp (lift (try_consume_n_bytes n)) (fun o s' => step P (match o with Some a => length a | None => 0 end) s s' /\
        adv 0 s s' /\ forall a, o = Some a -> oks a /\ tx s = a ++ tx s' /\ str_bytes a = n) s.
  Proof.
    intros Hi. unfold Lex.wp. rewrite consume_bytes_eq by apply (i_chars _ _ Hi).
    destruct (split_bytes n (tx s)) as [[a b]|] eqn:Hs.
    - apply split_bytes_spec in Hs. destruct Hs as [Ht Hb]. split; [|split].
      + apply step_adv; [assumption|]. exists a, b. auto.
      + exists a, b. split; [assumption|]. split; [reflexivity|lia].
      + intros a' H; injection H as <-. split; [eapply inv_suf_oks; eassumption|]. rewrite tx_st_at. auto.
    - split; [apply step_refl; assumption|]. split; [apply adv_refl, (i_chars _ _ Hi)|discriminate].
  Qed.

  Lemma wp_simple_string P m s : inv P s ->
    wp (demangle_simple_string E m) (fun nm s' => step P 2 s s' /\ s_fps s' = s_fps s /\ oks nm) s.
  Proof.
    intros Hi. unfold demangle_simple_string. apply wp_bind, wp_text, wp_bind, wp_ok_or; [oke|].
    intros pos Hpos. apply wp_if; intros Hp0; [oke|]. apply Nat.eqb_neq in Hp0.
    run (wp_consume_bytes P). intros o s1 (H1 & A1 & Ho).
    apply wp_bind, wp_ok_or; [oke|]. intros nm ->. destruct (Ho _ eq_refl) as (Hoks & Htx & Hb).
    assert (length nm > 0) by (destruct nm; [cbn in Hb; lia|cbn; lia]).
    lexr lex_expect_char. intros _ s2 [H2 A2].
    apply wp_bind. eapply wp_mono with (Q := fun _ s' => step P 0 s2 s' /\ s_fps s' = s_fps s2).
    - apply wp_if; intros _.
      + eapply wp_mono; [apply wp_memorize_string; [apply H2|assumption]|]. intros _ s3 (A & B & C). auto.
      + apply wp_ret. split; [apply step_refl, H2|reflexivity].
    - intros _ s3 [H3 Hf]. apply wp_ret. brk. split; [mkstep|]. split; [congruence|assumption].
  Qed.

  Lemma wp_simple_name P m s : inv P s ->
    wp (demangle_simple_name E m) (fun h s' => step P 2 s s' /\ wfk (s_store s') P KIdent h /\
       length (s_store s) <= h /\ inv (fun i => P i /\ i <> h) s') s.
  Proof.
    intros Hi. unfold demangle_simple_name. run (wp_simple_string P).
    intros nm s1 (H1 & Hf & Hoks). run (wp_intern P). intros h s2 H2.
    pose proof (in_step _ _ _ _ _ H2) as H3. pose proof H1 as H1'. brk. elen.
    split; [mkstep|]. split; [mkwf; assumption|]. split; [lia|].
    eapply (inv_avoid P s1); try eassumption; lia.
  Qed.

  Lemma wp_back_ref P s : inv P s ->
    wp (demangle_back_ref_name) (fun h s' => step P 1 s s' /\ wfk (s_store s') P KIdent h /\
       s_names s <> [] /\ exists nm, nth_error (s_store s') h = Some (NNamed None nm)) s.
  Proof.
    intros Hi. unfold demangle_back_ref_name. lexr lex_eat_if.
    intros o s1 [H1 A1]. apply wp_bind, wp_ok_or; [oke|]. intros c ->. apply wp_bind, wp_get, wp_ok_or; [oke|].
    intros h Hh. split; [assumption|]. apply nth_error_In in Hh. brk.
    pose proof (i_names _ _ st_inv0) as Hn. rewrite Forall_forall in Hn. destruct (Hn _ Hh) as (HP & nm & Hnth & Hoks).
    split; [mkwf; assumption|]. split; [intros H0; rewrite Hnm, H0 in Hh; destruct Hh|exists nm; assumption].
  Qed.

  (** ** Exact consumption *)
  Lemma wp_with_eq {A} (m : M A) Q s : wp m Q s -> wp m (fun a s' => Q a s' /\ m s = Ok (a, s')) s.
  Proof. unfold Lex.wp. destruct (m s) as [[a s']| | |]; auto. Qed.
  Lemma wp_expect_char P c e s : inv P s -> okerr e ->
    wp (expect_char c e) (fun _ s' => step P 1 s s' /\ adv 1 s s' /\ tx s = c :: tx s') s.
  Proof.
    intros Hi He. unfold expect_char. apply wp_bind. unfold Lex.wp at 1. rewrite eat_char_eq by apply (i_chars _ _ Hi).
    destruct (tx s) as [|x r] eqn:Ht; [exact He|].
    destruct (N.eqb_spec x c) as [->|Hne]; [|exact He].
    apply wp_ret. assert (Ha : adv 1 s (st_at r s)) by (eapply adv_cons; eassumption).
    split; [apply step_adv; assumption|]. auto.
  Qed.
  Lemma wp_expect_char_at P c e s r : inv P s -> tx s = c :: r ->
    wp (expect_char c e) (fun _ s' => step P 1 s s' /\ adv 1 s s' /\ tx s = c :: tx s') s.
  Proof.
    intros Hi Ht. unfold expect_char. apply wp_bind. unfold Lex.wp at 1. rewrite eat_char_eq by apply (i_chars _ _ Hi).
    rewrite Ht, N.eqb_refl.
    apply wp_ret. assert (Ha : adv 1 s (st_at r s)) by (eapply adv_cons; eassumption).
    split; [apply step_adv; assumption|]. auto.
  Qed.
  Lemma starts_with_true p s : starts_with p s = true -> exists r, s = p ++ r.
  Proof.
    unfold starts_with. destruct (strip_prefix p s) as [r|] eqn:Hp; [|discriminate].
    intros _. exists r. apply strip_prefix_spec. assumption.
  Qed.
  Lemma starts_with_false p s r : starts_with p s = false -> s <> p ++ r.
  Proof.
    unfold starts_with. destruct (strip_prefix p s) as [r'|] eqn:Hp; [discriminate|].
    intros _ H. apply strip_prefix_spec in H. congruence.
  Qed.

  Lemma interned_avoid P n s h s' : inv P s -> interned P n s h s' -> inv (fun i => P i /\ i <> h) s'.
  Proof.
    intros Hi Hin. destruct Hin as [[H1 H2 H3] H4 H5 H6 H7 H8 H9 H10].
    eapply (inv_avoid P s); try eassumption; lia.
  Qed.
  Lemma Forall_wfk_ext a b P k l : ext a b -> Forall (wfk a P k) l -> Forall (wfk b P k) l.
  Proof. intros He. apply Forall_impl. intros h. apply wfk_ext. assumption. Qed.
  Lemma Forall_any sg P k l : Forall (wfk sg P k) l -> Forall (kid_ok sg P) (map (pair (KK KAny)) l).
  Proof.
    induction 1 as [|h l Hh Hl IH]; cbn; constructor; [|assumption].
    change (wfk sg P KAny h). eapply wfk_any. eassumption.
  Qed.

  Lemma idents_nodes sg P c : kid_ok sg P (KIdents, c) -> wfk sg P KNodes c.
  Proof. intros [H1 (l & Hl & _)]. split; [exact H1|]. exists (NNodes l). split; [exact Hl|reflexivity]. Qed.
  Lemma nodes_idents sg P Q c l : wfk sg P KNodes c -> nth_error sg c = Some (NNodes l) ->
    Forall (wfk sg Q KIdent) l -> kid_ok sg P (KIdents, c).
  Proof.
    intros [H1 _] Hl Hf. split; [exact H1|]. exists l. split; [exact Hl|].
    eapply Forall_impl; [|exact Hf]. intros i [_ Hi]. exact Hi.
  Qed.

  Lemma wp_unqualified_identifier P qn s : wfk (s_store s) P KQual qn ->
    wp (unqualified_identifier qn) (fun o s' => s' = s /\ forall id, o = Some id -> wfk (s_store s) P KIdent id) s.
  Proof.
    intros Hw. destruct (wfk_node _ _ _ _ Hw) as (n & Hn & Hk). destruct n; try discriminate Hk.
    destruct (wfk_kids _ _ _ _ _ Hw Hn) as (Hkids & _ & _). cbn [kids] in Hkids.
    inversion Hkids as [|x l Hc _]; subst. cbn in Hc.
    assert (Hwc : wfk (s_store s) (fun i => P i /\ i <> qn) KNodes components) by (apply idents_nodes; exact Hc).
    destruct (wfk_node _ _ _ _ Hwc) as (m & Hm & Hmk). destruct m; try discriminate Hmk.
    destruct (wfk_kids _ _ _ _ _ Hwc Hm) as (Hkids2 & _ & _). cbn [kids] in Hkids2.
    unfold unqualified_identifier. apply wp_bind. eapply wp_res; [exact Hn|reflexivity|cbv beta iota].
    apply wp_bind. eapply wp_res; [exact Hm|reflexivity|cbv beta iota].
    destruct (rev l) as [|h r] eqn:Hr; [apply wp_ret; split; [reflexivity|discriminate]|].
    assert (Hin : In h l) by (apply in_rev; rewrite Hr; left; reflexivity).
    rewrite Forall_forall in Hkids2. specialize (Hkids2 (KK KAny, h) (in_map _ _ _ Hin)).
    destruct Hkids2 as [Hwh (nh & Hnh & _)]. cbn in Hwh, Hnh.
    apply wp_bind. eapply wp_res; [exact Hnh|reflexivity|cbv beta iota]. apply wp_ret. split; [reflexivity|].
    intros id. destruct (is_ident nh) eqn:Hid; [|discriminate]. intros H; injection H as <-.
    split; [|exists nh; auto]. eapply wf_mono; [|exact Hwh]. cbn. tauto.
  Qed.

  (** Updates that keep the shape. *)
  Record shaped (P : handle -> Prop) (s : st) (j : handle) (n' : node) (s' : st) : Prop := {
    sh_inv : inv P s';
    sh_wfk : forall R k h, wfk (s_store s) R k h -> wfk (s_store s') R k h;
    sh_ext : forall base, ext base (s_store s) -> length base <= j -> ext base (s_store s');
    sh_tx : tx s' = tx s;
    sh_same : nth_error (s_store s') j = Some n';
    sh_other : forall i, i <> j -> nth_error (s_store s') i = nth_error (s_store s) i;
    sh_len : length (s_store s') = length (s_store s);
    sh_tab : s_fps s' = s_fps s /\ s_names s' = s_names s
  }.
  Lemma wp_modify_shape P k j f s n : inv P s -> nth_error (s_store s) j = Some n -> hkind k n = true ->
    hkind KNamed n = false -> sim n (f n) -> kids (f n) = kids n -> (local_ok okc n -> local_ok okc (f n)) ->
    wp (modify k j f) (fun _ s' => shaped P s j (f n) s') s.
  Proof.
    intros Hi Hn Hk Hnn Hsim Hkids Hloc. eapply wp_modify; [eassumption|assumption|].
    assert (Hw : forall R k h, wfk (s_store s) R k h -> wfk (upd (s_store s) j (f n)) R k h)
      by (intros; eapply wfk_upd_shape; eassumption).
    split; cbn [set_store s_store]; auto.
    - eapply inv_upd; eauto.
    - intros. apply ext_upd; assumption.
    - eapply nth_upd_same; eassumption.
    - intros. apply nth_upd_other; assumption.
    - apply upd_length.
  Qed.
  Lemma node_quals_shape f n : sim n (node_quals f n) /\ kids (node_quals f n) = kids n /\
    (local_ok okc n -> local_ok okc (node_quals f n)).
  Proof. destruct n; cbn; auto. Qed.
  Lemma type_not_named n : is_type n = true -> hkind KNamed n = false.
  Proof. destruct n; cbn; intros; congruence. Qed.

  Lemma wp_modify_quals P k j f s n : inv P s -> nth_error (s_store s) j = Some n -> hkind k n = true ->
    is_type n = true ->
    wp (modify k j (node_quals f)) (fun _ s' => shaped P s j (node_quals f n) s') s.
  Proof.
    intros. destruct (node_quals_shape f n) as (H4 & H5 & H6). apply wp_modify_shape; auto using type_not_named.
  Qed.

  (** [local_scope_pattern] never slices off a boundary. *)
  Lemma local_scope_ok s : exists b, local_scope_pattern s = Ok b.
  Proof.
    unfold local_scope_pattern. destruct s as [|q s]; [eauto|]. destruct (_ =? _)%N; [|eauto].
    destruct (find_char (ch "?") s) as [e|] eqn:Hf; [|eauto].
    apply find_char_spec in Hf. destruct Hf as (a & b & -> & <- & _). rewrite split_bytes_app.
    destruct a as [|c0 [|c1 a]]; [eauto|eauto|].
    destruct (last (c0 :: c1 :: a) 0 =? ch "@")%N eqn:Hl; [|eauto]. apply N.eqb_eq in Hl.
    destruct (exists_last (l := c0 :: c1 :: a)) as (body & z & Hb); [discriminate|]. rewrite Hb in *.
    rewrite last_last in Hl. subst z. rewrite str_bytes_app.
    replace (str_bytes body + str_bytes [ch "@"] - 1) with (str_bytes body) by (cbn; lia).
    rewrite split_bytes_app. destruct body; eauto.
  Qed.

  (** ** The three recursive entry points *)
  Definition parse_pre (s : st) : Prop :=
    (exists p, s0 = p ++ tx s /\ (p = [] \/ scope_discriminator p)) \/ exists r, tx s = ch "?" :: r.
  Definition parse_spec (m : M handle) (n : nat) : Prop := forall P s, inv P s -> parse_pre s -> length (tx s) < n ->
    wp m (fun h s' => step P 1 s s' /\ wfk (s_store s') P KSym h) s.
  Definition fresh_ty (s s' : st) P (h : handle) : Prop :=
    wfk (s_store s') P KType h /\ length (s_store s) <= h /\
    forall q a c p, nth_error (s_store s') h = Some (NPtr q a c p) -> length (s_store s) <= p.
  Definition type_spec (m : M handle) (n : nat) : Prop := forall P s, inv P s -> length (tx s) < n ->
    wp m (fun h s' => step P 1 s s' /\ fresh_ty s s' P h) s.
  Definition tinst_spec (b : nbb) (m : M handle) (n : nat) : Prop := forall P s, inv P s -> length (tx s) < n ->
    wp m (fun h s' => step P 1 s s' /\ wfk (s_store s') P KIdent h /\ length (s_store s) <= h /\
      (nbb_template b = false -> s_names s' = s_names s /\ s_fps s' = s_fps s)) s.

  Section Knot.
    Variable K : knot.
    Variable NN : nat.
    Hypothesis HKp : parse_spec (k_parse K) NN.
    Hypothesis HKt : forall m, type_spec (k_type K m) NN.
    Hypothesis HKi : forall b, tinst_spec b (k_tinst K b) NN.

    Lemma wp_anonymous P s : inv P s ->
      wp (demangle_anonymous_namespace_name E) (fun h s' => step P 1 s s' /\ wfk (s_store s') P KIdent h) s.
    Proof.
      intros Hi. unfold demangle_anonymous_namespace_name. lexr lex_expect_str. intros _ s1 [H1 A1].
      apply wp_bind, wp_text, wp_bind, wp_ok_or; [oke|]. intros pos Hpos.
      run (wp_consume_bytes P). intros o s2 (H2 & A2 & Ho). apply wp_bind, wp_ok_or; [oke|]. intros key ->.
      destruct (Ho _ eq_refl) as (Hoks & _ & _).
      run (wp_memorize_string P). intros _ s3 (H3 & Ht3 & Hf3).
      lexr lex_expect_char. intros _ s4 [H4 A4]. run (wp_intern P). intros h s5 H5. brk.
      cbn [length L list_ascii_of_string map] in * |-.
      split; [mkstep|]. mkwf. apply oks_lit; [assumption|reflexivity].
    Qed.

    Lemma local_scope_number t : local_scope_pattern t = Ok true -> exists nt v r, t = ch "?" :: nt ++ ch "?" :: r /\ num_text nt v.
    Proof.
      destruct t as [|q t]; [discriminate|]. cbn [local_scope_pattern].
      destruct (N.eqb_spec q (ch "?")) as [->|]; [|discriminate].
      destruct (find_char (ch "?") t) as [e|] eqn:Hf; [|discriminate].
      apply find_char_spec in Hf. destruct Hf as (a & b & -> & <- & _). rewrite split_bytes_app.
      destruct a as [|c0 [|c1 a]]; [discriminate| |].
      - intros [= H]. apply orb_true_iff in H. destruct H as [H|H].
        + apply N.eqb_eq in H. subst c0. exists (L "@"), (letters_value 0 [] mod 2 ^ 64)%N, b. split; [reflexivity|].
          apply (num_letters []). constructor.
        + apply digit_iff in H. exists [c0], (c0 - ch "0" + 1)%N, b. split; [reflexivity|].
          replace c0 with (ch "0" + (c0 - ch "0"))%N at 1 by lia. apply num_digit. revert H. change (ch "0") with 48%N. change (ch "9") with 57%N. lia.
      - destruct (last (c0 :: c1 :: a) 0 =? ch "@")%N eqn:Hl; [|discriminate]. apply N.eqb_eq in Hl.
        destruct (exists_last (l := c0 :: c1 :: a)) as (body & z & Hb); [discriminate|]. rewrite Hb in *.
        rewrite last_last in Hl. subst z. rewrite str_bytes_app.
        replace (str_bytes body + str_bytes [ch "@"] - 1) with (str_bytes body) by (cbn; lia).
        rewrite split_bytes_app. destruct body as [|b0 bs]; [discriminate|]. intros [= H]. apply andb_prop in H. destruct H as [H0 H1].
        unfold in_range in H0. apply andb_prop in H0. rewrite !N.leb_le in H0. rewrite forallb_forall in H1.
        exists ((b0 :: bs) ++ L "@"), (letters_value 0 (b0 :: bs) mod 2 ^ 64)%N, b. split; [reflexivity|].
        apply num_letters. constructor; [revert H0; change (ch "A") with 65%N; change (ch "B") with 66%N; change (ch "P") with 80%N; lia|].
        apply Forall_forall. intros c Hc. apply rebased_iff. apply H1. exact Hc.
    Qed.

    Lemma wp_locally_scoped P s : inv P s -> local_scope_pattern (tx s) = Ok true -> length (tx s) <= NN ->
      wp (demangle_locally_scoped_name_piece E K) (fun h s' => step P 1 s s' /\ wfk (s_store s') P KIdent h) s.
    Proof.
      intros Hi Hpat Hlen. unfold demangle_locally_scoped_name_piece.
      destruct (local_scope_number _ Hpat) as (d & v & r & Htx & Hd).
      run (wp_expect_char_at P). intros _ s1 (H1 & A1 & Ht1).
      assert (Htx1 : tx s1 = d ++ ch "?" :: r) by congruence.
      pose proof (demangle_number_eq _ d v false _ (i_chars _ _ (st_inv _ _ _ _ H1)) (ex_intro _ d (conj Hd eq_refl)) Htx1) as Heq.
      apply wp_bind. eapply wp_mono.
      { apply wp_with_eq. eapply (wp_lex _ _ P); [apply lex_number; apply okerr_other|sinv]. }
      intros [num neg] s2 [[H2 A2] Heq2]. rewrite Heq in Heq2. injection Heq2 as <- <- Hs2. cbv beta iota.
      assert (Ht2 : tx s1 = d ++ tx s2) by (rewrite Htx1, <- Hs2; reflexivity).
      assert (Htx2 : tx s2 = ch "?" :: r) by (rewrite <- Hs2; reflexivity).
      run (wp_expect_char_at P). intros _ s3 (H3 & A3 & Ht3).
      run (HKp P); [|lens; lia|].
      { left. destruct (i_suf _ _ Hi) as [p Hp]. exists (p ++ L "?" ++ d ++ L "?"). split; [|right; exists p, d, v; auto].
        rewrite Hp, Ht1, Ht2, Ht3, <- !app_assoc. reflexivity. }
      intros scope s4 [H4 Hw]. apply wp_bind. eapply wp_mono; [apply wp_render|].
      { apply wok_seq; [apply wok_str, oks_lit; [assumption|reflexivity]|]. apply wok_seq.
        - apply (output_ok okc Hascii E _ P). exact Hw.
        - apply wok_str. apply oks_app; [apply oks_lit; [assumption|reflexivity]|].
          apply oks_app; [apply oks_dec_N; assumption|apply oks_lit; [assumption|reflexivity]]. }
      intros nm s5 [-> Hnm]. run (wp_intern P). intros h s5 H5. brk.
      split; [mkstep|]. mkwf. assumption.
    Qed.

    Lemma wp_piece P s : inv P s -> length (tx s) < NN ->
      wp (demangle_name_scope_piece E K) (fun h s' => step P 1 s s' /\ wfk (s_store s') P KIdent h) s.
    Proof.
      intros Hi Hl. unfold demangle_name_scope_piece. apply wp_bind, wp_text. apply wp_if; intros _.
      { eapply wp_mono; [apply (wp_back_ref P); assumption|]. intros h s' (H1 & H2 & _). auto. }
      apply wp_if; intros _.
      { eapply wp_mono; [apply (HKi _ P); assumption|]. intros h s' (H1 & H2 & _). auto. }
      apply wp_if; intros _; [apply wp_anonymous; assumption|].
      destruct (local_scope_ok (tx s)) as [b Hb]. rewrite Hb. destruct b.
      - apply wp_locally_scoped; [assumption|exact Hb|lia].
      - eapply wp_mono; [apply (wp_simple_name P); assumption|]. intros h s' (H1 & H2 & _).
        split; [eapply step_le; [|eassumption]; lia|assumption].
    Qed.

    Lemma wp_scope_loop P fuel : forall acc s, inv P s -> length (tx s) < fuel -> length (tx s) < NN ->
      wp (scope_loop E K fuel acc) (fun l s' => step P 1 s s' /\
         exists pre, l = pre ++ acc /\ Forall (wfk (s_store s') P KIdent) pre) s.
    Proof.
      induction fuel as [|fuel IH]; intros acc s Hi Hf Hl; [lia|]. cbn [scope_loop].
      lexr lex_eat_char. intros [|] s1 [H1 A1].
      { apply wp_ret. split; [assumption|]. exists []. auto. }
      apply wp_bind, wp_text. apply wp_if; intros _; [oke|].
      lens. run (wp_piece P). intros h s2 [H2 Hw2].
      lens. eapply wp_mono; [apply IH; [sinv|lia|lia]|].
      intros l s3 (H3 & pre & -> & Hpre). split.
      - brk. mkstep.
      - exists (pre ++ [h]). rewrite <- app_assoc. split; [reflexivity|]. apply Forall_app. split; [assumption|].
        constructor; [|constructor]. brk. elift.
    Qed.

    Definition chain_post (P' P : handle -> Prop) (s : st) (id qn : handle) (s' : st) : Prop :=
      wfk (s_store s') P KQual qn /\ length (s_store s) <= qn /\
      exists c pre, nth_error (s_store s') qn = Some (NQual c) /\
        nth_error (s_store s') c = Some (NNodes (pre ++ [id])) /\
        Forall (wfk (s_store s') P' KIdent) pre /\ length (s_store s) <= c.
    Lemma wp_chain (P' P : handle -> Prop) id s : (forall i, P' i -> P i) -> inv P' s -> wfk (s_store s) P KIdent id ->
      length (tx s) < NN ->
      wp (demangle_name_scope_chain E K id) (fun qn s' => step P' 1 s s' /\ chain_post P' P s id qn s') s.
    Proof.
      intros HPP Hi Hid Hl. unfold demangle_name_scope_chain. apply wp_bind, wp_text.
      run (wp_scope_loop P'). intros l s1 (H1 & pre & -> & Hpre).
      run (wp_intern P'). intros c s2 H2. pose proof (in_step _ _ _ _ _ H2) as H2'.
      run (wp_intern P'). intros qn s3 H3. brk. elen.
      assert (Hext13 : ext (s_store s1) (s_store s3)) by sext.
      assert (Hpre3 : Forall (wfk (s_store s3) P' KIdent) pre) by (eapply Forall_wfk_ext; eassumption).
      assert (Hpid : Forall (wfk (s_store s3) P KIdent) (pre ++ [id])).
      { apply Forall_app. split.
        - eapply Forall_impl; [|exact Hpre3]. intros h Hh. eapply wfk_mono; [|exact Hh]. assumption.
        - constructor; [|constructor]. elift. }
      assert (Hc3 : kid_ok (s_store s3) P (KIdents, c)).
      { eapply nodes_idents; [|elift|exact Hpid].
        eapply wfk_mk; [elift|auto|exact I| |reflexivity]. cbn [kids]. apply Forall_any with (k := KIdent).
        exact Hpid. }
      split; [mkstep|]. split; [|split; [lia|]].
      - eapply wfk_mk; [elift|auto|exact I| |reflexivity]. constructor; [exact Hc3|constructor].
      - exists c, pre. split; [assumption|]. split; [elift|]. split; [assumption|lia].
    Qed.

    Definition fresh_id (P : handle -> Prop) (s s' : st) (h : handle) : Prop :=
      length (s_store s) <= h /\ inv (fun i => P i /\ i <> h) s'.

    Lemma wp_code_group P g s : inv P s ->
      wp (demangle_function_identifier_code_group E g) (fun h s' => step P 1 s s' /\ wfk (s_store s') P KIdent h /\ fresh_id P s s' h) s.
    Proof.
      intros Hi. unfold demangle_function_identifier_code_group. lexr lex_next. intros c s1 [H1 A1]. cbv zeta.
      assert (Hintern : forall n s2, step P 0 s1 s2 -> is_ident n = true -> kids n = [] -> local_ok okc n ->
        wp (intern E n) (fun h s' => step P 1 s s' /\ wfk (s_store s') P KIdent h /\ fresh_id P s s' h) s2).
      { intros n s2 H2 Hid Hk Hloc. eapply wp_mono; [apply (wp_intern P); sinv|]. intros h s3 H3.
        pose proof (interned_avoid _ _ _ _ _ (st_inv _ _ _ _ H2) H3). brk. elen. split; [mkstep|]. split.
        - eapply wfk_mk; [elift|assumption|assumption|rewrite Hk; constructor|exact Hid].
        - split; [lia|assumption]. }
      assert (Hintr : wp (op <- translate_intrinsic c g ;; intern E (NIntrinsic None op))
        (fun h s' => step P 1 s s' /\ wfk (s_store s') P KIdent h /\ fresh_id P s s' h) s1).
      { lexr lex_translate. intros op s2 [H2 A2]. apply Hintern; [assumption|reflexivity|reflexivity|exact I]. }
      assert (Href : step P 0 s1 s1) by (apply step_refl; sinv).
      destruct g.
      - apply wp_if; intros _; [apply Hintern; [assumption|reflexivity|reflexivity|exact I]|].
        apply wp_if; intros _; [apply Hintern; [assumption|reflexivity|reflexivity|exact I]|exact Hintr].
      - exact Hintr.
      - apply wp_if; intros _; [|exact Hintr]. run (wp_simple_string P). intros nm s2 (H2 & Hf & Hoks).
        apply Hintern; [eapply step_le; [|exact H2]; lia|reflexivity|reflexivity|exact Hoks].
    Qed.
    Lemma wp_code P s : inv P s ->
      wp (demangle_function_identifier_code E) (fun h s' => step P 1 s s' /\ wfk (s_store s') P KIdent h /\ fresh_id P s s' h) s.
    Proof.
      intros Hi. unfold demangle_function_identifier_code. lexr lex_expect_char. intros _ s1 [H1 A1].
      assert (Hg : forall g s2, step P 0 s1 s2 -> wp (demangle_function_identifier_code_group E g)
         (fun h s' => step P 1 s s' /\ wfk (s_store s') P KIdent h /\ fresh_id P s s' h) s2).
      { intros g s2 H2. eapply wp_mono; [apply (wp_code_group P); sinv|]. intros h s3 (H3 & Hw & Hlt & Hi3).
        brk. elen. split; [mkstep|]. split; [assumption|]. split; [lia|assumption]. }
      lexr lex_eat_str. intros [|] s2 [H2 A2]; [apply Hg; eapply step_le; [|exact H2]; lia|].
      lexr lex_eat_char. intros b s3 [H3 A3].
      assert (H23 : step P 0 s1 s3) by (eapply step_le; [|eapply step_trans; eassumption]; lia).
      destruct b; apply Hg; assumption.
    Qed.

    Lemma wp_unq_type P m s : inv P s -> length (tx s) < NN ->
      wp (demangle_unqualified_type_name E K m) (fun h s' => step P 1 s s' /\ wfk (s_store s') P KIdent h) s.
    Proof.
      intros Hi Hl. unfold demangle_unqualified_type_name. apply wp_bind, wp_text. apply wp_if; intros _.
      { eapply wp_mono; [apply (wp_back_ref P); assumption|]. intros h s' (H1 & H2 & _). auto. }
      apply wp_if; intros _.
      { eapply wp_mono; [apply (HKi _ P); assumption|]. intros h s' (H1 & H2 & _). auto. }
      eapply wp_mono; [apply (wp_simple_name P); assumption|]. intros h s' (H1 & H2 & _).
      split; [eapply step_le; [|eassumption]; lia|assumption].
    Qed.
    Lemma wp_unq_sym P s : inv P s -> length (tx s) < NN ->
      wp (demangle_unqualified_symbol_name E K NBB_Simple) (fun h s' => step P 1 s s' /\ wfk (s_store s') P KIdent h /\
         ((s_names s <> [] /\ exists nm, nth_error (s_store s') h = Some (NNamed None nm)) \/ fresh_id P s s' h)) s.
    Proof.
      intros Hi Hl. unfold demangle_unqualified_symbol_name. apply wp_bind, wp_text. apply wp_if; intros _.
      { eapply wp_mono; [apply (wp_back_ref P); assumption|]. intros h s' (H1 & H2 & H3 & H4). auto. }
      apply wp_if; intros _.
      { eapply wp_mono; [apply (HKi _ P); assumption|]. intros h s' (H1 & H2 & H3 & H4).
        destruct (H4 eq_refl) as [H5 H6]. split; [assumption|]. split; [assumption|]. right. split; [assumption|].
        eapply (inv_avoid P s); eauto; try sinv; [apply (st_ext _ _ _ _ H1)|eapply wfk_lt; eassumption]. }
      apply wp_if; intros _.
      { eapply wp_mono; [apply (wp_code P); assumption|]. intros h s' (H1 & H2 & H3). auto. }
      eapply wp_mono; [apply (wp_simple_name P); assumption|]. intros h s' (H1 & H2 & H3 & H4).
      split; [eapply step_le; [|eassumption]; lia|]. split; [assumption|]. right. split; assumption.
    Qed.

    Lemma wp_fq_type P s : inv P s -> length (tx s) < NN ->
      wp (demangle_fully_qualified_type_name E K) (fun h s' => step P 1 s s' /\ wfk (s_store s') P KQual h) s.
    Proof.
      intros Hi Hl. unfold demangle_fully_qualified_type_name. run (wp_unq_type P). intros id s1 [H1 Hw].
      lens. eapply wp_mono; [apply (wp_chain P P); [auto|sinv|assumption|lia]|].
      intros qn s2 [H2 (Hq & _)]. brk. split; [mkstep|assumption].
    Qed.

    (** [set_class] and the other re-linking updates. *)
    Lemma wfk_upd_avoid sg P j n n' k h : nth_error sg j = Some n -> sim n n' ->
      wfk sg (fun i => P i /\ i <> j) k h -> wfk (upd sg j n') (fun i => P i /\ i <> j) k h.
    Proof. intros Hj Hs [H1 H2]. split; [eapply wf_upd_avoid; eassumption|eapply kind_at_upd; eassumption]. Qed.
    Lemma wfk_relink sg P j n n' k h : nth_error sg j = Some n -> sim n n' -> local_ok okc n' ->
      Forall (kid_ok sg (fun i => P i /\ i <> j)) (kids n') -> wfk sg P k h -> wfk (upd sg j n') P k h.
    Proof.
      intros Hj Hs Hl Hk Hw. rewrite Forall_forall in Hk. eapply wfk_upd; try eassumption.
      - split; [assumption|]. intros x c Hc. apply (Hk _ Hc).
      - intros x c Hc. apply (Hk _ Hc).
    Qed.
    Lemma wfk_relink_root sg (P : handle -> Prop) j n n' k : nth_error sg j = Some n -> sim n n' -> local_ok okc n' ->
      Forall (kid_ok sg (fun i => P i /\ i <> j)) (kids n') -> P j -> hkind k n' = true -> wfk (upd sg j n') P k j.
    Proof.
      intros Hj Hs Hl Hk HP Hkd. rewrite Forall_forall in Hk. split.
      - eapply wf_upd_root; try eassumption.
        + split; [assumption|]. intros x c Hc. apply (Hk _ Hc).
        + intros x c Hc. apply (Hk _ Hc).
      - exists n'. split; [eapply nth_upd_same; eassumption|assumption].
    Qed.

    (** The id of a qualified name. *)
    Definition sym_name_post (P : handle -> Prop) (s : st) (qn : handle) (s' : st) : Prop :=
      wfk (s_store s') P KQual qn /\ length (s_store s) <= qn /\
      exists c pre id n, nth_error (s_store s') qn = Some (NQual c) /\
        nth_error (s_store s') c = Some (NNodes (pre ++ [id])) /\
        nth_error (s_store s') id = Some n /\ is_ident n = true /\ wfk (s_store s') P KIdent id /\
        ((exists nm, n = NNamed None nm) \/ fresh_id P s s' id).

    Lemma wp_fq_sym P s : inv P s -> length (tx s) < NN ->
      wp (demangle_fully_qualified_symbol_name E K) (fun qn s' => step P 1 s s' /\ sym_name_post P s qn s') s.
    Proof.
      intros Hi Hl. unfold demangle_fully_qualified_symbol_name. run (wp_unq_sym P). intros id s1 (H1 & Hw1 & Hcase).
      pose proof (st_len _ _ _ _ H1) as Hl1. pose proof (st_ext _ _ _ _ H1) as He1.
      assert (exists P' : handle -> Prop, (forall i, P' i -> P i) /\ inv P' s1 /\
              ((exists nm, nth_error (s_store s1) id = Some (NNamed None nm)) \/
               (length (s_store s) <= id /\ P' = (fun i => P i /\ i <> id)))) as (P' & HPP & Hi' & Hc').
      { destruct Hcase as [[_ Hnm]|[Hlt Hi']].
        - exists P. split; [auto|]. split; [sinv|]. left; assumption.
        - exists (fun i => P i /\ i <> id). split; [tauto|]. split; [assumption|]. right; auto. }
      run (wp_chain P' P id s1); try assumption. intros qn s2 [H2 (Hq & Hqlt & c & pre & Hqn & Hcn & Hpre & Hclt)].
      assert (Hw2 : wfk (s_store s2) P KIdent id) by (eapply wfk_ext; [apply (st_ext _ _ _ _ H2)|assumption]).
      destruct (wfk_node _ _ _ _ Hw2) as (n & Hn & Hid). cbn in Hid.
      assert (Hstep : step P 1 s s2).
      { destruct H2 as [Ha Hb Hc]. split; [eapply inv_mono; eassumption|eapply ext_trans; eassumption|lia]. }
      assert (Hfresh : (exists nm, n = NNamed None nm) \/ fresh_id P s s2 id).
      { destruct Hc' as [[nm Hnm]|[Hlt ->]].
        - left. exists nm. apply (st_ext _ _ _ _ H2) in Hnm. congruence.
        - right. split; [assumption|sinv]. }
      assert (Hdone : sym_name_post P s qn s2).
      { pose proof (ext_length _ _ He1). split; [assumption|]. split; [lia|]. exists c, pre, id, n.
        split; [assumption|]. split; [assumption|]. split; [assumption|]. split; [assumption|]. split; assumption. }
      apply wp_bind. eapply wp_res; [exact Hn|exact Hid|cbv beta iota].
      destruct n; try (apply wp_ret; split; assumption).
      destruct Hfresh as [[nm Hnm]|[Hlt Hi2]]; [discriminate|].
      destruct Hc' as [[nm Hnm]|[_ ->]]; [apply (st_ext _ _ _ _ H2) in Hnm; congruence|].
      apply wp_bind. eapply wp_res; [exact Hqn|reflexivity|cbv beta iota].
      apply wp_bind. eapply wp_res; [exact Hcn|reflexivity|cbv beta iota].
      apply wp_bind. apply wp_if; intros Hlen; [oke|]. apply Nat.ltb_ge in Hlen.
      rewrite app_length in *. cbn [length] in *.
      destruct (exists_last (l := pre)) as (pre' & cl & Hpe); [intros ->; cbn in Hlen; lia|]. subst pre.
      rewrite app_length. cbn [length]. rewrite <- app_assoc.
      rewrite nth_error_app2 by lia. replace (length pre' + 1 + 1 - 2 - length pre') with 0 by lia. cbn [nth_error app].
      apply Forall_app in Hpre. destruct Hpre as [Hpre' Hcl]. inversion Hcl as [|x y Hcl' _]; subst.
      destruct (wfk_node _ _ _ _ Hcl') as (ncl & Hncl & Hidcl). cbn in Hidcl.
      apply wp_bind. eapply wp_res; [exact Hncl|reflexivity|cbv beta iota]. rewrite Hidcl. apply wp_ret.
      apply wp_bind. eapply wp_modify; [exact Hn|reflexivity|cbv beta iota]. apply wp_ret. cbn [set_class].
      destruct (wfk_kids _ _ _ _ _ Hw2 Hn) as (Hkids & Hloc & HP). cbn [kids] in Hkids. apply Forall_app in Hkids.
      set (n' := NStructor tp (Some cl) dtor).
      assert (Hk' : Forall (kid_ok (s_store s2) (fun i => P i /\ i <> id)) (kids n')).
      { cbn [kids n']. apply Forall_app. split; [apply Hkids|]. constructor; [exact Hcl'|constructor]. }
      set (s3 := set_store (upd (s_store s2) id n') s2).
      assert (Hup : forall k h, wfk (s_store s2) P k h -> wfk (upd (s_store s2) id n') P k h)
        by (intros k h Hh; eapply wfk_relink; [exact Hn|exact I|exact I|exact Hk'|exact Hh]).
      assert (Hi3 : inv P s3) by (eapply inv_upd; [sinv|exact Hn|reflexivity|exact Hup]).
      assert (He3 : ext (s_store s) (s_store s3)) by (apply ext_upd; [apply (st_ext _ _ _ _ Hstep)|assumption]).
      split; [split; [exact Hi3|exact He3|apply (st_len _ _ _ _ Hstep)]|].
      split; [apply Hup; assumption|]. split; [pose proof (ext_length _ _ He1); lia|].
      assert (Hne : forall h m, nth_error (s_store s2) h = Some m -> hkind KStructor m = false -> h <> id).
      { intros h m Hh Hk Heq. subst h. rewrite Hn in Hh. injection Hh as <-. discriminate. }
      exists c, (pre' ++ [cl]), id, n'. cbn [s3 set_store s_store].
      split; [rewrite nth_upd_other by (eapply Hne; [eassumption|reflexivity]); assumption|].
      split; [rewrite nth_upd_other by (eapply Hne; [eassumption|reflexivity]); assumption|].
      split; [eapply nth_upd_same; exact Hn|]. split; [reflexivity|]. split; [apply Hup; assumption|].
      right. split; [assumption|]. eapply inv_upd; [exact Hi2|exact Hn|reflexivity|].
      intros k h Hh. eapply wfk_upd_avoid; [exact Hn|exact I|exact Hh].
    Qed.

    (** ** Types *)
    Definition ty_post (P : handle -> Prop) (s : st) (h : handle) (s' : st) : Prop := step P 1 s s' /\ fresh_ty s s' P h.

    Lemma wp_custom P s : inv P s -> length (tx s) <= NN -> wp (demangle_custom_type E K) (ty_post P s) s.
    Proof.
      intros Hi Hl. unfold demangle_custom_type. lexr lex_expect_char. intros _ s1 [H1 A1].
      lens. run (wp_unq_type P). intros id s2 [H2 Hw].
      lexr lex_eat_char. intros b s3 [H3 A3]. apply wp_if; intros _; [|oke].
      run (wp_intern P). intros h s4 H4. brk. elen. split; [mkstep|]. split; [mkwf|]. split; [lia|]. intros. congruence.
    Qed.
    Lemma lex_tag f : lex okerr (fun _ => 0) (if (f =? ch "T")%N then ret TKUnion
          else if (f =? ch "U")%N then ret TKStruct
          else if (f =? ch "V")%N then ret TKClass
          else if (f =? ch "W")%N then
            four <- eat_char (ch "4") ;; if four then ret TKEnum else fail InvalidClassType
          else fail InvalidClassType).
    Proof.
      apply lex_if; [apply lex_ret; reflexivity|]. apply lex_if; [apply lex_ret; reflexivity|].
      apply lex_if; [apply lex_ret; reflexivity|]. apply lex_if; [|apply lex_fail; oke].
      eapply lex_bind; [apply lex_eat_char|]. intros b. apply lex_if; [apply lex_ret; reflexivity|apply lex_fail; oke].
    Qed.
    Lemma wp_class P s : inv P s -> length (tx s) <= NN -> wp (demangle_class_type E K) (ty_post P s) s.
    Proof.
      intros Hi Hl. unfold demangle_class_type. lexr lex_next. intros f s1 [H1 A1].
      lexr lex_tag. intros t s2 [H2 A2]. lens. run (wp_fq_type P). intros qn s3 [H3 Hw].
      run (wp_intern P). intros h s4 H4. brk. elen. split; [mkstep|]. split; [mkwf|]. split; [lia|]. intros. congruence.
    Qed.

    Lemma wp_params_loop P fuel : forall acc s, inv P s -> length (tx s) < fuel -> length (tx s) < NN ->
      Forall (wfk (s_store s) P KType) acc ->
      wp (params_loop K fuel acc) (fun l s' => step P 0 s s' /\ Forall (wfk (s_store s') P KType) l) s.
    Proof.
      induction fuel as [|fuel IH]; intros acc s Hi Hf Hl Hacc; [lia|]. cbn [params_loop].
      apply wp_bind, wp_text. apply wp_if; intros _.
      { apply wp_ret. split; [apply step_refl; assumption|]. apply Forall_rev. assumption. }
      apply wp_if; intros _; [oke|]. lexr lex_eat_if. intros [d|] s1 [H1 A1].
      - apply wp_bind, wp_get, wp_bind, wp_ok_or; [oke|]. intros h Hh. apply nth_error_In in Hh.
        lens. pose proof (st_inv _ _ _ _ H1) as Hi1.
        pose proof (i_fps _ _ Hi1) as Hfp. rewrite Forall_forall in Hfp.
        eapply wp_mono; [apply (IH (h :: acc) s1); [assumption|lia|lia|]|].
        + constructor; [auto|]. eapply Forall_wfk_ext; [apply (st_ext _ _ _ _ H1)|assumption].
        + intros l s2 [H2 Hl2]. split; [|assumption]. brk. mkstep.
      - apply wp_bind. unfold Lex.wp at 1. cbn [len_chars]. lens. pose proof (st_inv _ _ _ _ H1) as Hi1.
        run (HKt QDrop P s1). intros tn s2 [H2 (Hw & Hlt & _)]. pose proof (st_inv _ _ _ _ H2) as Hi2.
        lens. apply wp_bind. unfold Lex.wp at 1. cbn [len_chars].
        rewrite (i_chars _ _ Hi1), (i_chars _ _ Hi2).
        apply wp_if; intros Hlt'; [apply Nat.ltb_lt in Hlt'; lia|].
        assert (Hacc' : Forall (wfk (s_store s2) P KType) (tn :: acc)).
        { constructor; [assumption|]. eapply Forall_wfk_ext; [|eassumption]. brk. sext. }
        assert (Hcont : forall s3, inv P s3 -> s_store s3 = s_store s2 -> tx s3 = tx s2 ->
          wp (params_loop K fuel (tn :: acc)) (fun l s' => step P 0 s s' /\ Forall (wfk (s_store s') P KType) l) s3).
        { intros s3 Hi3 Hst Htx. eapply wp_mono; [apply (IH (tn :: acc) s3); [assumption|rewrite Htx; lia|rewrite Htx; lia|rewrite Hst; assumption]|].
          intros l s4 [H4 Hl4]. split; [|assumption]. brk. rewrite Hst, Htx in *. mkstep. }
        apply wp_bind. destruct (length (tx s1) - length (tx s2)) as [|[|]]; [oke|apply wp_ret, Hcont; auto|].
        unfold Lex.wp at 1. destruct (length (s_fps s2) <? 10); apply Hcont; auto.
        destruct Hi2 as [A B C D F G]. split; auto. cbn [set_fps s_fps s_store]. apply Forall_app. split; [assumption|].
        constructor; [assumption|constructor].
    Qed.
    Lemma wp_params P s : inv P s -> length (tx s) < NN ->
      wp (demangle_function_parameter_list E K) (fun r s' => step P 1 s s' /\
         forall h, fst r = Some h -> wfk (s_store s') P KNodes h) s.
    Proof.
      intros Hi Hl. unfold demangle_function_parameter_list. lexr lex_eat_char. intros [|] s1 [H1 A1].
      { apply wp_ret. split; [assumption|discriminate]. }
      lens. apply wp_bind, wp_text. run (wp_params_loop P); [constructor|].
      intros l s2 [H2 Hl2]. run (wp_intern P). intros na s3 H3. pose proof (in_step _ _ _ _ _ H3) as H3'.
      assert (Hna : wfk (s_store s3) P KNodes na).
      { brk. eapply wfk_mk; [elift|assumption|exact I| |reflexivity]. cbn [kids]. apply Forall_any with (k := KType).
        eapply Forall_wfk_ext; [|eassumption]. sext. }
      lexr lex_eat_char. intros b s4 [H4 A4]. destruct b.
      { apply wp_ret. brk. split; [mkstep|]. cbn. intros h H'; injection H' as <-. elift. }
      lexr lex_eat_char. intros b s5 [H5 A5]. destruct b; [|oke].
      apply wp_ret. brk. split; [mkstep|]. cbn. intros h H'; injection H' as <-. elift.
    Qed.

    Definition fty_post (P : handle -> Prop) (s : st) (h : handle) (s' : st) : Prop :=
      step P 1 s s' /\ wfk (s_store s') P KFSig h /\ length (s_store s) <= h.
    Lemma wp_function_type P b s : inv P s -> length (tx s) < NN -> wp (demangle_function_type E K b) (fty_post P s) s.
    Proof.
      intros Hi Hl. unfold demangle_function_type.
      apply wp_bind. eapply wp_mono with (Q := fun _ s' => step P 0 s s').
      { apply wp_if; intros _; [|apply wp_ret, step_refl; assumption].
        lexr lex_pointer_ext. intros q1 s1 [H1 A1]. lexr lex_ref_qual. intros rq s2 [H2 A2].
        lexr lex_qualifiers. intros [q2 m] s3 [H3 A3]. apply wp_ret. brk. mkstep. }
      intros [quals rq] s1 H1. lexr lex_cc. intros cc s2 [H2 A2]. lexr lex_eat_char. intros b' s3 [H3 A3].
      lens. apply wp_bind. eapply wp_mono with (Q := fun o s' => step P 0 s3 s' /\ forall t, o = Some t -> wfk (s_store s') P KType t).
      { destruct b'; [apply wp_ret; split; [apply step_refl; sinv|discriminate]|].
        run (HKt QResult P). intros t s4 [H4 (Hw & _)]. apply wp_ret. split; [eapply step_le; [|exact H4]; lia|].
        intros t' Ht; injection Ht as <-. assumption. }
      intros rt s4 [H4 Hrt]. lens. run (wp_params P). intros [params variadic] s5 [H5 Hpar].
      lexr lex_throw. intros ne s6 [H6 A6]. run (wp_intern P). intros h s7 H7. cbn [fst] in Hpar. brk. elen.
      split; [mkstep|]. split; [|lia].
      destruct rt as [t|]; [specialize (Hrt t eq_refl)|]; (destruct params as [pp|]; [specialize (Hpar pp eq_refl)|]); mkwf.
    Qed.
    Lemma fsig_type sg P h : wfk sg P KFSig h -> wfk sg P KType h.
    Proof. intros [H1 (n & Hn & Hk)]. split; [assumption|]. exists n. split; [assumption|]. destruct n; cbn in *; congruence. Qed.
    Lemma fty_ty P s h s' : fty_post P s h s' -> ty_post P s h s'.
    Proof.
      intros (H1 & H2 & H3). split; [assumption|]. split; [apply fsig_type; assumption|]. split; [assumption|].
      intros q a c p Hn. destruct H2 as [_ (n & Hn' & Hk)]. rewrite Hn in Hn'. injection Hn' as <-. discriminate.
    Qed.

    Lemma wp_pointer P s : inv P s -> is_pointer_type (tx s) = true -> length (tx s) <= NN -> wp (demangle_pointer_type E K) (ty_post P s) s.
    Proof.
      intros Hi Hpt Hl. unfold demangle_pointer_type. lexa at_pointer_cv. intros [quals aff] s1 [H1 A1].
      lexr lex_eat_char. intros six s2 [H2 A2]. lens. apply wp_bind. eapply wp_mono with (Q := fun r s' => step P 0 s2 s' /\ wfk (s_store s') P KType (snd r) /\ length (s_store s2) <= snd r).
      { destruct six.
        - run (wp_function_type P). intros p s3 (H3 & Hw & Hlt). apply wp_ret. split; [eapply step_le; [|exact H3]; lia|].
          split; [apply fsig_type; assumption|assumption].
        - lexr lex_pointer_ext. intros ex s3 [H3 A3]. lens. run (HKt QMangle P).
          intros p s4 [H4 (Hw & Hlt & _)]. apply wp_ret. cbn [snd]. brk. elen. split; [mkstep|]. split; [assumption|lia]. }
      intros [quals' p] s3 (H3 & Hw & Hlt). cbn [snd] in *. run (wp_intern P). intros h s4 H4. brk. elen.
      split; [mkstep|]. split; [mkwf|]. split; [lia|]. intros q a c p' Hn. rewrite in_nth0 in Hn. injection Hn as <- <- <- <-. lia.
    Qed.

    (** What the look-ahead has established when a member pointer is read. *)
    Definition member_rest (r : str) : Prop := exists d t, r = d :: t /\ ((d =? ch "8")%N = true \/ (one_of (L "QRST") d = true /\ (d =? ch "8")%N = false)).
    Lemma ext_eq s : chars_ok s -> exists e, pointer_ext_qualifiers s = Ok (e, st_at (skip (ch "F") (skip (ch "I") (skip (ch "E") (tx s)))) s).
    Proof.
      assert (Hc : forall c s, chars_ok s -> exists b, eat_char c s = Ok (b, st_at (skip c (tx s)) s)).
      { intros c u Hu. rewrite eat_char_eq by assumption. destruct (tx u) as [|x r] eqn:Ht.
        - exists false. cbn [skip]. rewrite <- Ht, st_at_id by assumption. reflexivity.
        - cbn [skip]. destruct (_ =? _)%N; [eauto|]. exists false. rewrite <- Ht, st_at_id by assumption. reflexivity. }
      intros Hs. unfold pointer_ext_qualifiers, bind.
      destruct (Hc (ch "E") s Hs) as [b1 ->].
      destruct (Hc (ch "I") _ (chars_ok_st_at (skip (ch "E") (tx s)) s)) as [b2 ->].
      destruct (Hc (ch "F") _ (chars_ok_st_at (skip (ch "I") (tx (st_at (skip (ch "E") (tx s)) s))) (st_at (skip (ch "E") (tx s)) s))) as [b3 ->].
      eexists. reflexivity.
    Qed.
    Lemma member_cv_eq s : chars_ok s -> is_member_pointer (tx s) = Some true ->
      exists c r q, tx s = c :: r /\ demangle_pointer_cv_qualifiers s = Ok ((q, APointer), st_at r s) /\
        member_rest (skip (ch "F") (skip (ch "I") (skip (ch "E") r))).
    Proof.
      intros Hs Hm. destruct (tx s) as [|c r] eqn:Ht; [discriminate|]. cbn [is_member_pointer] in Hm.
      destruct (one_of (L "$A") c) eqn:H1; [discriminate|]. destruct (one_of (L "PQRS") c) eqn:H2; [|discriminate].
      assert (Hr : member_rest (skip (ch "F") (skip (ch "I") (skip (ch "E") r)))).
      { clear H1 H2 Ht. assert (Hq : forall u, match u with [] => None | c3 :: _ => if one_of (L "ABCD") c3 then Some false else if one_of (L "QRST") c3 then Some true else None end = Some true -> member_rest u).
        { intros u Hu. destruct u as [|d t]; [discriminate|]. destruct (one_of (L "ABCD") d); [discriminate|].
          destruct (one_of (L "QRST") d) eqn:Hd; [|discriminate]. exists d, t. split; [reflexivity|]. destruct (d =? ch "8")%N; auto. }
        destruct r as [|d r]; [discriminate Hm|]. destruct (is_digit d); [|apply Hq; exact Hm].
        destruct (d =? ch "6")%N; [discriminate|]. destruct (N.eqb_spec d (ch "8")) as [->|]; [|discriminate].
        cbn. exists (ch "8"), r. auto. }
      exists c, r. unfold demangle_pointer_cv_qualifiers, bind. rewrite eat_str_eq, Ht by assumption.
      assert (Hl : exists q, lookup c pointer_cv_table = Some (q, APointer) /\ strip_prefix (L "$$Q") (c :: r) = None).
      { clear H1 Hm Ht Hr. unfold one_of in H2. cbn in H2. repeat (apply orb_prop in H2; destruct H2 as [H2|H2]; [apply N.eqb_eq in H2; subst c; cbn; eauto|]). discriminate H2. }
      destruct Hl as (q & Hq & ->). exists q. split; [reflexivity|]. split; [|exact Hr].
      rewrite next_char_eq, Ht by assumption. rewrite Hq. reflexivity.
    Qed.
    Lemma wp_keep {A} (m : M A) (Q : A -> st -> Prop) s : wp m Q s -> wp m (fun a s' => Q a s' /\ m s = Ok (a, s')) s.
    Proof. unfold Lex.wp. destruct (m s) as [[a s']| | |]; auto. Qed.

    Lemma wp_member_pointer P s : inv P s -> is_pointer_type (tx s) = true -> is_member_pointer (tx s) = Some true -> length (tx s) <= NN -> wp (demangle_member_pointer_type E K) (ty_post P s) s.
    Proof.
      intros Hi Hpt Hmp Hl. unfold demangle_member_pointer_type.
      destruct (member_cv_eq _ (i_chars _ _ Hi) Hmp) as (c0 & r0 & q0 & Ht0 & Hcv & Hrest).
      apply wp_bind. eapply wp_mono; [apply wp_keep; eapply wp_lex_at; [eapply at_pointer_cv; eassumption|sinv]|].
      intros [quals aff] s1 [[H1 A1] E1]. rewrite Hcv in E1. injection E1 as <- <- E1.
      apply wp_bind. eapply wp_mono; [apply wp_keep; eapply wp_lex; [apply lex_pointer_ext|sinv]|].
      intros ex s2 [[H2 A2] E2]. destruct (ext_eq s1) as [e2 E2']; [eapply i_chars; sinv|]. rewrite E2' in E2. injection E2 as <- E2.
      assert (Hr2 : member_rest (tx s2)) by (rewrite <- E2, <- E1; exact Hrest). clear E1 E2 E2' Hrest Hcv Ht0.
      apply wp_bind. eapply wp_mono; [apply wp_keep; eapply wp_lex; [apply lex_eat_char|sinv]|].
      intros eight s3 [[H3 A3] E3]. rewrite eat_char_eq in E3 by (eapply i_chars; sinv).
      assert (Hq3 : eight = false -> exists v s4, demangle_qualifiers s3 = Ok ((v, true), s4)).
      { destruct Hr2 as (d & t & Ht2 & Hd). rewrite Ht2 in E3. intros ->. destruct Hd as [Hd|[Hd Hd8]].
        - rewrite Hd in E3. discriminate E3.
        - rewrite Hd8 in E3. injection E3 as <-. unfold demangle_qualifiers, bind. rewrite next_char_eq, Ht2 by (eapply i_chars; sinv).
          assert (Hlk : exists v, lookup d qualifiers_table = Some (v, true)).
          { clear Hd8 Ht2. unfold one_of in Hd. cbn in Hd. repeat (apply orb_prop in Hd; destruct Hd as [Hd|Hd]; [apply N.eqb_eq in Hd; subst d; cbn; eauto|]). discriminate Hd. }
          destruct Hlk as [v ->]. eexists _, _. reflexivity. }
      clear E3 Hr2.
      lens. destruct eight.
      - run (wp_fq_type P). intros cls s4 [H4 Hc]. lens. run (wp_function_type P).
        intros p s5 (H5 & Hw & Hlt). apply fsig_type in Hw. run (wp_intern P). intros h s6 H6. brk. elen.
        split; [mkstep|]. split; [mkwf|]. split; [lia|]. intros q a c p' Hn. rewrite in_nth0 in Hn. injection Hn as <- <- <- <-. lia.
      - apply wp_bind. eapply wp_mono; [apply wp_keep; eapply wp_lex; [apply lex_qualifiers; try oke|sinv]|].
        intros [pq mem] s4 [[H4 A4] E4]. destruct (Hq3 eq_refl) as (v4 & u4 & E4'). rewrite E4' in E4. injection E4 as <- <- _. clear E4' Hq3 u4. lens.
        run (wp_fq_type P). intros cls s5 [H5 Hc]. lens. run (HKt QDrop P).
        intros p s6 [H6 (Hw & Hlt & _)]. destruct (wfk_node _ _ _ _ Hw) as (n & Hn & Hk).
        assert (Hext6 : ext (s_store s) (s_store s6)) by (brk; sext).
        assert (Hc6 : wfk (s_store s6) P KQual cls) by (brk; elift).
        assert (Hle : length (s_store s) <= p).
        { clear Hext6. brk. elen. lia. }
        run (wp_modify_quals P KType p (fun _ => v4) s6 n); try assumption.
        intros _ s7 [S1 S2 S3 S4 S5 S6 S7 S8]. specialize (S3 _ Hext6 Hle). apply S2 in Hc6. apply S2 in Hw.
        run (wp_intern P). intros h s8 H8. lens. rewrite <- S4 in *. clear H1 H2 H3 H4 H5 H6 A1 A2 A3 A4. brk. elen.
        split; [mkstep|]. split; [mkwf|]. split; [lia|]. intros q a c p' Hn'. rewrite in_nth0 in Hn'. injection Hn' as <- <- <- <-. lia.
    Qed.

    Lemma wp_dims P fuel : forall rank acc s, inv P s -> length (tx s) < fuel ->
      Forall (fun i => wfk (s_store s) P KAny i /\ exists v neg, nth_error (s_store s) i = Some (NInt v neg)) acc ->
      wp (dims_loop E fuel rank acc) (fun l s' => step P 0 s s' /\
        Forall (fun i => wfk (s_store s') P KAny i /\ exists v neg, nth_error (s_store s') i = Some (NInt v neg)) l) s.
    Proof.
      induction fuel as [|fuel IH]; intros rank acc s Hi Hf Hacc; [lia|]. cbn [dims_loop]. apply wp_if; intros _.
      { apply wp_ret. split; [apply step_refl; assumption|]. apply Forall_rev. assumption. }
      lexr lex_number. intros [v neg] s1 [H1 A1]. apply wp_if; intros _; [oke|].
      run (wp_intern P). intros h s2 H2. pose proof (in_step _ _ _ _ _ H2) as H2'.
      lens. eapply wp_mono; [apply IH; [sinv|lia|]|].
      - brk. assert (ext (s_store s) (s_store s2)) by sext. constructor.
        + split; [mkwf|]. eauto.
        + eapply Forall_impl; [|exact Hacc]. intros i (Ha & v' & n' & Hb). split; [elift|]. exists v', n'. auto.
      - intros l s3 [H3 Hl]. split; [|assumption]. brk. mkstep.
    Qed.
    Lemma wp_array P s : inv P s -> length (tx s) <= NN -> wp (demangle_array_type E K) (ty_post P s) s.
    Proof.
      intros Hi Hl. unfold demangle_array_type. lexr lex_expect_char. intros _ s1 [H1 A1].
      lexr lex_number. intros [rank neg] s2 [H2 A2]. apply wp_if; intros _; [oke|]. apply wp_bind, wp_text.
      run (wp_dims P); [constructor|]. intros l s3 [H3 Hdims]. run (wp_intern P). intros dims s4 H4.
      pose proof (in_step _ _ _ _ _ H4) as H4'. lexr lex_eat_str. intros c s5 [H5 A5].
      apply wp_bind. eapply wp_mono with (Q := fun _ s' => step P 0 s5 s').
      { apply wp_if; intros _; [|apply wp_ret, step_refl; sinv]. lexr lex_qualifiers. intros [q mem] s6 [H6 A6].
        destruct mem; [oke|]. apply wp_ret. eapply step_le; [|exact H6]; lia. }
      intros quals s6 H6. lens. run (HKt QDrop P). intros el s7 [H7 (Hw & Hlt & _)]. run (wp_intern P). intros h s8 H8. brk. elen.
      assert (Hx : ext (s_store s3) (s_store s8)) by sext.
      split; [mkstep|]. split; [|split; [lia|intros; congruence]].
      eapply wfk_mk; [elift|assumption|exact I| |reflexivity]. cbn [kids]. constructor; [|constructor; [|constructor]].
      - assert (Hd8 : Forall (fun i => wfk (s_store s8) P KAny i /\ exists v neg, nth_error (s_store s8) i = Some (NInt v neg)) l).
        { eapply Forall_impl; [|exact Hdims]. intros i (Ha & v' & n' & Hb). split; [elift|]. exists v', n'. auto. }
        assert (Hdm : wfk (s_store s8) P KNodes dims).
        { eapply wfk_mk; [elift|assumption|exact I| |reflexivity]. cbn [kids]. apply Forall_any with (k := KAny).
          eapply Forall_impl; [|exact Hd8]. intros i [Ha _]. exact Ha. }
        split; [apply Hdm|]. cbn. exists l. split; [elift|]. eapply Forall_impl; [|exact Hd8]. intros i [_ Ha]. exact Ha.
      - change (wfk (s_store s8) P KType el). elift.
    Qed.

    Lemma wp_type P m s : inv P s -> length (tx s) <= NN -> wp (demangle_type E K m) (ty_post P s) s.
    Proof.
      intros Hi Hl. unfold demangle_type.
      apply wp_bind. eapply wp_mono with (Q := fun _ s' => step P 0 s s').
      { destruct m.
        - apply wp_ret, step_refl; assumption.
        - lexr lex_qualifiers. intros [q b] s1 [H1 A1]. apply wp_ret. eapply step_le; [|exact H1]; lia.
        - lexr lex_eat_char. intros [|] s1 [H1 A1]; [|apply wp_ret; exact H1].
          lexr lex_qualifiers. intros [q b] s2 [H2 A2]. apply wp_ret. brk. mkstep. }
      intros quals s1 H1. apply wp_bind, wp_text. apply wp_if; intros _; [oke|].
      lens. pose proof (st_inv _ _ _ _ H1) as Hi1.
      assert (Hl1 : length (tx s1) <= NN) by lia.
      apply wp_bind. eapply wp_mono with (Q := ty_post P s1).
      { apply wp_if; intros _; [apply wp_class; assumption|].
        apply wp_if; intros Hpt.
        { destruct (is_member_pointer (tx s1)) as [[|]|] eqn:Hmp; [apply wp_member_pointer; assumption|apply wp_pointer; assumption|oke]. }
        apply wp_if; intros _; [apply wp_array; assumption|].
        apply wp_if; intros _.
        { lexr lex_eat_str. intros [|] s2 [H2 A2]; lens; cbn [length L list_ascii_of_string map] in * |-.
          - eapply wp_mono; [apply (wp_function_type P); [sinv|lia]|]. intros h s3 H3. apply fty_ty in H3.
            destruct H3 as [H3 (Ha & Hb & Hc)]. brk. elen. split; [mkstep|]. split; [assumption|]. split; [lia|].
            intros q a c p Hn. specialize (Hc _ _ _ _ Hn). lia.
          - lexr lex_eat_str. intros [|] s3 [H3 A3]; [|oke]. lens. cbn [length L list_ascii_of_string map] in * |-.
            eapply wp_mono; [apply (wp_function_type P); [sinv|lia]|]. intros h s4 H4. apply fty_ty in H4.
            destruct H4 as [H4 (Ha & Hb & Hc)]. brk. elen. split; [mkstep|]. split; [assumption|]. split; [lia|].
            intros q a c p Hn. specialize (Hc _ _ _ _ Hn). lia. }
        apply wp_if; intros _; [apply wp_custom; assumption|].
        unfold demangle_primitive_type. lexr lex_prim_kind. intros k s2 [H2 A2]. run (wp_intern P). intros h s3 H3. brk. elen.
        split; [mkstep|]. split; [mkwf|]. split; [lia|]. intros. congruence. }
      intros ty s2 [H2 (Hw & Hlt & Hptr)]. destruct (wfk_node _ _ _ _ Hw) as (n & Hn & Hk).
      run (wp_modify_quals P KType ty (fun old => N.lor old quals) s2 n); try assumption.
      intros _ s3 [S1 S2 S3 S4 S5 S6 S7 S8]. apply wp_ret.
      assert (He : ext (s_store s) (s_store s2)) by (brk; sext).
      assert (Hle : length (s_store s) <= ty) by (clear He; brk; elen; lia).
      lens. split; [split; [assumption|apply S3; assumption|rewrite S4; lia]|].
      split; [apply S2; assumption|]. split; [assumption|].
      intros q a c p Hp. rewrite S5 in Hp. destruct n; try discriminate Hp. cbn in Hp. injection Hp as _ _ _ <-.
      specialize (Hptr _ _ _ _ Hn). clear He. brk. elen. lia.
    Qed.

    (** ** Template arguments *)
    Lemma sym_name_qual sg P sym n qn : wfk sg P KSym sym -> nth_error sg sym = Some n -> sym_name n = Some qn ->
      wfk sg P KQual qn.
    Proof.
      intros Hw Hn Hq. destruct (wfk_kids _ _ _ _ _ Hw Hn) as (Hk & _ & _). rewrite Forall_forall in Hk.
      assert (In (KK KQual, qn) (kids n)) as Hin.
      { destruct n; cbn in Hq; try discriminate Hq; cbn [kids].
        - injection Hq as ->. left; reflexivity.
        - injection Hq as ->. left; reflexivity.
        - injection Hq as ->. left; reflexivity.
        - subst name. left; reflexivity.
        - destruct name as [[h|]|]; try discriminate Hq. injection Hq as ->. left; reflexivity.
        - subst name. left; reflexivity. }
      specialize (Hk _ Hin). eapply wfk_mono; [|exact Hk]. cbn. tauto.
    Qed.

    Lemma wp_template_symbol P s : inv P s -> length (tx s) < NN ->
      wp (template_symbol E K) (fun o s' => step P 0 s s' /\ forall h, o = Some h -> wfk (s_store s') P KSym h) s.
    Proof.
      intros Hi Hl. unfold template_symbol. apply wp_bind, wp_text. apply wp_if; intros Hq.
      2: { apply wp_ret. split; [apply step_refl; assumption|discriminate]. }
      apply starts_with_true in Hq. destruct Hq as [r Hr].
      run (HKp P); [right; exists r; exact Hr|]. intros sym s1 [H1 Hw].
      destruct (wfk_node _ _ _ _ Hw) as (n & Hn & Hk). apply wp_bind. eapply wp_res; [exact Hn|exact Hk|cbv beta iota].
      destruct (sym_name n) as [qn|] eqn:Hsn; [|oke]. pose proof (sym_name_qual _ _ _ _ _ Hw Hn Hsn) as Hqn.
      run (wp_unqualified_identifier P). intros o s2 [-> Hid]. apply wp_bind, wp_ok_or; [oke|].
      intros id ->. specialize (Hid _ eq_refl). run (wp_memorize_identifier P).
      intros _ s2 (H2 & _ & _). apply wp_ret. brk. split; [mkstep|]. intros h Hh; injection Hh as <-. elift.
    Qed.

    Lemma wp_template_arg P s : inv P s -> length (tx s) < NN ->
      wp (template_arg E K) (fun h s' => step P 1 s s' /\ wfk (s_store s') P KAny h) s.
    Proof.
      intros Hi Hl. unfold template_arg. lexr lex_eat_str. intros auto s1 [H1 A1]. lens.
      apply wp_bind. eapply wp_mono with (Q := fun _ s' => step P 0 s1 s').
      { apply wp_if; intros _; [|apply wp_ret, step_refl; sinv]. run (HKt QDrop P). intros t s2 [H2 _]. apply wp_ret.
        eapply step_le; [|exact H2]; lia. }
      intros _ s2 H2. lens. lexr lex_eat_str. intros [|] s3 [H3 A3]; lens; cbn [length L list_ascii_of_string map] in * |-.
      { eapply wp_mono; [apply (wp_fq_type P); [sinv|lia]|]. intros h s4 [H4 Hw]. brk. split; [mkstep|].
        eapply wfk_any; eassumption. }
      lexr lex_eat_str. intros [|] s4 [H4 A4]; lens; cbn [length L list_ascii_of_string map] in * |-.
      { eapply wp_mono; [apply (HKt QDrop P); [sinv|lia]|]. intros h s5 [H5 (Hw & _)]. brk. split; [mkstep|].
        eapply wfk_any; eassumption. }
      lexr lex_eat_str. intros [|] s5 [H5 A5]; lens; cbn [length L list_ascii_of_string map] in * |-.
      { eapply wp_mono; [apply (HKt QMangle P); [sinv|lia]|]. intros h s6 [H6 (Hw & _)]. brk. split; [mkstep|].
        eapply wfk_any; eassumption. }
      lexr lex_eat_first; [destruct auto; repeat constructor|]. intros [p|] s6 [H6 A6]; lens.
      { run (wp_template_symbol P). intros sym s7 [H7 Hsym]. destruct (inheritance_count p) as [count|]; [|oke].
        lexr lex_read_offsets. intros offs s8 [H8 A8]. run (wp_intern P). intros h s9 H9. brk. split; [mkstep|].
        destruct sym as [y|]; [specialize (Hsym y eq_refl)|]; mkwf. }
      apply wp_bind, wp_text. apply wp_if; intros Hq.
      { apply starts_with_true in Hq. destruct Hq as [r Hr].
        apply wp_bind. unfold Lex.wp at 1, expect_str, bind. rewrite eat_str_eq by (eapply i_chars; sinv).
        assert (Hsp : strip_prefix (L "$E") (tx s6) = Some (ch "?" :: r)) by (apply strip_prefix_spec; exact Hr).
        rewrite Hsp. cbv beta iota. change (ret tt (st_at (ch "?" :: r) s6)) with (Ok (tt, st_at (ch "?" :: r) s6)). cbv beta iota.
        assert (Ha : adv 2 s6 (st_at (ch "?" :: r) s6)) by (exists (L "$E"), (ch "?" :: r); repeat split; [exact Hr|cbn; lia]).
        pose proof (step_adv P _ _ _ (st_inv _ _ _ _ H6) Ha) as H7. lens.
        set (s7 := st_at (ch "?" :: r) s6) in *. run (HKp P); [right; exists r; reflexivity|]. intros sym s8 [H8 Hw].
        run (wp_intern P). intros h s9 H9. clear Ha. clearbody s7. brk. split; [mkstep|]. mkwf. }
      lexr lex_eat_first; [destruct auto; repeat constructor|]. intros [d|] s7 [H7 A7]; lens.
      { destruct (data_member_count d) as [count|]; [|oke]. lexr lex_read_offsets. intros offs s8 [H8 A8].
        run (wp_intern P). intros h s9 H9. brk. split; [mkstep|]. mkwf. }
      lexr lex_eat_str. intros z s8 [H8 A8]; lens.
      destruct z.
      { lexr lex_number. intros [v neg] s9 [H9 A9]. run (wp_intern P). intros h s10 H10. lens.
        assert (Hx : length (tx s8) <= length (tx s7)) by lia. brk. split; [mkstep|]. mkwf. }
      eapply wp_mono; [apply (HKt QDrop P); [sinv|lia]|]. intros h s9 [H9 (Hw & _)]. brk. split; [mkstep|].
      eapply wfk_any; eassumption.
    Qed.

    Lemma wp_targs P fuel : forall acc s, inv P s -> length (tx s) < fuel -> length (tx s) < NN ->
      Forall (wfk (s_store s) P KAny) acc ->
      wp (targs_loop E K fuel acc) (fun l s' => step P 0 s s' /\ Forall (wfk (s_store s') P KAny) l) s.
    Proof.
      induction fuel as [|fuel IH]; intros acc s Hi Hf Hl Hacc; [lia|]. cbn [targs_loop].
      lexr lex_eat_char. intros [|] s1 [H1 A1]; lens.
      { apply wp_ret. assert (s_store s1 = s_store s) by apply (adv_store _ _ _ A1). rewrite H. split; [eapply step_le; [|exact H1]; lia|]. apply Forall_rev. assumption. }
      lexr lex_eat_first; [repeat constructor|]. intros [p|] s2 [H2 A2]; lens.
      { eapply wp_mono; [apply (IH acc s2); [sinv|lia|lia|]|].
        - eapply Forall_wfk_ext; [|eassumption]. brk. sext.
        - intros l s3 [H3 Hl3]. split; [|assumption]. brk. mkstep. }
      apply wp_bind, wp_text. apply wp_if; intros _; [oke|].
      run (wp_template_arg P). intros h s3 [H3 Hw]. lens.
      eapply wp_mono; [apply (IH (h :: acc) s3); [sinv|lia|lia|]|].
      - constructor; [assumption|]. eapply Forall_wfk_ext; [|eassumption]. brk. sext.
      - intros l s4 [H4 Hl4]. split; [|assumption]. brk. mkstep.
    Qed.
    Lemma wp_template_list P s : inv P s -> length (tx s) < NN ->
      wp (demangle_template_parameter_list E K) (fun h s' => step P 0 s s' /\ wfk (s_store s') P KNodes h) s.
    Proof.
      intros Hi Hl. unfold demangle_template_parameter_list. apply wp_bind, wp_text.
      run (wp_targs P); [constructor|]. intros l s1 [H1 Hl1]. run (wp_intern P). intros h s2 H2. brk.
      split; [mkstep|]. eapply wfk_mk; [elift|assumption|exact I| |reflexivity]. cbn [kids].
      apply Forall_any with (k := KAny). eapply Forall_wfk_ext; [|eassumption]. sext.
    Qed.

    Lemma set_tp_ok t n : is_ident n = true ->
      sim n (set_template_params t n) /\ is_ident (set_template_params t n) = true /\
      (local_ok okc n -> local_ok okc (set_template_params t n)) /\
      forall xc, In xc (kids (set_template_params t n)) -> xc = (KK KNodes, t) \/ In xc (kids n).
    Proof.
      destruct n; cbn; try discriminate; intros _; repeat split; auto; intros xc; cbn; rewrite ?in_app_iff; intuition auto.
    Qed.

    Lemma wp_tinst P b s : inv P s -> length (tx s) <= NN ->
      wp (demangle_template_instantiation_name E K b) (fun h s' => step P 1 s s' /\ wfk (s_store s') P KIdent h /\
        length (s_store s) <= h /\ (nbb_template b = false -> s_names s' = s_names s /\ s_fps s' = s_fps s)) s.
    Proof.
      intros Hi Hl. unfold demangle_template_instantiation_name. lexr lex_expect_str. intros _ s1 [H1 A1]. lens.
      cbn [length L list_ascii_of_string map] in * |-. pose proof (adv_store _ _ _ A1) as (Hs1 & Hf1 & Hn1).
      apply wp_bind, wp_get, wp_bind. unfold Lex.wp at 1. set (s2 := set_names [] (set_fps [] s1)).
      assert (Hi2 : inv P s2).
      { destruct (st_inv _ _ _ _ H1) as [A B C D F G]. split; try assumption; constructor. }
      assert (Ht2 : tx s2 = tx s1) by reflexivity.
      run (wp_unq_sym P s2); [rewrite Ht2; lia|]. intros id s3 (H3 & Hw3 & Hcase).
      destruct Hcase as [[Hc _]|[Hlt Hi3]]; [exfalso; apply Hc; reflexivity|]. lens.
      run (wp_template_list (fun i => P i /\ i <> id) s3); [rewrite Ht2 in *; lia|]. intros tp s4 [H4 Hw4]. lens.
      assert (Hid4 : wfk (s_store s4) P KIdent id) by (eapply wfk_ext; [apply (st_ext _ _ _ _ H4)|assumption]).
      destruct (wfk_node _ _ _ _ Hid4) as (n & Hn & Hk). cbn in Hk.
      apply wp_bind. eapply wp_modify; [exact Hn|exact Hk|cbv beta iota]. apply wp_bind. unfold Lex.wp at 1.
      cbn [set_store s_ms s_store s_fps s_names set_fps set_names].
      set (n' := set_template_params tp n).
      set (s5 := mkSt (s_ms s4) (upd (s_store s4) id n') (s_fps s1) (s_names s1)).
      destruct (set_tp_ok tp n Hk) as (Hsim & Hid' & Hloc & Hkids). fold n' in Hsim, Hid', Hloc, Hkids.
      destruct (wfk_kids _ _ _ _ _ Hid4 Hn) as (Hkn & Hln & HPid).
      assert (Hk' : Forall (kid_ok (s_store s4) (fun i => P i /\ i <> id)) (kids n')).
      { rewrite Forall_forall in *. intros xc Hxc. destruct (Hkids _ Hxc) as [->|Hin]; [exact Hw4|apply Hkn, Hin]. }
      assert (He14 : ext (s_store s1) (s_store s4)).
      { eapply ext_trans; [|apply (st_ext _ _ _ _ H4)]. apply (st_ext _ _ _ _ H3). }
      assert (Hlt1 : length (s_store s1) <= id) by exact Hlt.
      assert (Hi5 : inv P s5).
      { destruct (st_inv _ _ _ _ H1) as [A B C D F G]. destruct (st_inv _ _ _ _ H4) as [A' B' C' D' F' G'].
        split; cbn [s5 s_store s_fps s_names]; try assumption.
        - rewrite upd_length; assumption.
        - rewrite upd_length. intros i Hle. apply D'. assumption.
        - eapply Forall_impl; [|exact F]. intros h Hh. eapply wfk_mono; [|eapply wfk_upd_avoid; [exact Hn|exact Hsim|]].
          + intros i [HPi _]. exact HPi.
          + eapply wfk_ext; [exact He14|]. eapply wfk_mono; [|apply wfk_bound, Hh]. cbn. intros i [Ha Hb]. split; [assumption|lia].
        - eapply Forall_impl; [|exact G]. intros h (Ha & nm & Hb & Hc). split; [assumption|]. exists nm. split; [|assumption].
          rewrite nth_upd_other; [apply He14; assumption|]. intros ->.
          assert (id < length (s_store s1)) by (apply nth_error_Some; congruence). lia. }
      assert (Hw5 : wfk (s_store s5) P KIdent id).
      { eapply wfk_relink_root; [exact Hn|exact Hsim|auto|exact Hk'|assumption|exact Hid']. }
      assert (H5 : step P 1 s s5).
      { split; [assumption| |change (tx s5) with (tx s4); rewrite Ht2 in *; lia]. rewrite <- Hs1. apply ext_upd; assumption. }
      assert (Hlt0 : length (s_store s) <= id) by (rewrite <- Hs1; assumption).
      match goal with |- Lex.wp _ _ _ ?x => change x with s5 end.
      apply wp_if; intros Hb.
      - destruct (wfk_node _ _ _ _ Hw5) as (n5 & Hn5 & Hk5). apply wp_bind. eapply wp_res; [exact Hn5|exact Hk5|cbv beta iota].
        apply wp_if; intros _; [oke|]. run (wp_memorize_identifier P). intros _ s6 (H6 & _ & _). apply wp_ret.
        clearbody s5. destruct H5, H6. split; [mkstep|]. split; [elift|]. split; [assumption|congruence].
      - apply wp_ret. split; [assumption|]. split; [assumption|]. split; [assumption|]. intros _. split; [exact Hn1|exact Hf1].
    Qed.

    (** ** Encodings *)
    Lemma wp_function_encoding P s : inv P s -> length (tx s) < NN ->
      wp (demangle_function_encoding E K) (fun h s' => step P 1 s s' /\ length (s_store s) <= h /\
        exists sig, nth_error (s_store s') h = Some (NFunc None sig) /\ wfk (s_store s') (fun i => P i /\ i <> h) KSig sig /\ P h) s.
    Proof.
      intros Hi Hl. unfold demangle_function_encoding. lexr lex_eat_str. intros j s1 [H1 A1].
      apply wp_bind, wp_text. apply wp_if; intros _; [oke|]. lexr lex_function_class. intros fc0 s2 [H2 A2]. cbv zeta.
      set (fc := N.lor fc0 _). lexr lex_this_adjust. intros ttn s3 [H3 A3]. lens.
      apply wp_bind. eapply wp_mono with (Q := fun h s' => step P 0 s3 s' /\ wfk (s_store s') P KFSig h /\ length (s_store s3) <= h).
      { apply wp_if; intros _.
        - eapply wp_mono; [apply (wp_intern P); sinv|]. intros h s4 H4. pose proof (in_step _ _ _ _ _ H4).
          split; [assumption|]. brk. split; [mkwf|lia].
        - eapply wp_mono; [apply (wp_function_type P); [sinv|lia]|]. intros h s4 (H4 & Hw & Hlt).
          split; [eapply step_le; [|exact H4]; lia|]. auto. }
      intros fsn s4 (H4 & Hw4 & Hlt4). lens.
      apply wp_bind. eapply wp_mono with (Q := fun h s' => step P 0 s4 s' /\ wfk (s_store s') P KSig h /\ length (s_store s3) <= h).
      { destruct (wfk_node _ _ _ _ Hw4) as (n & Hn & Hk). destruct n; try discriminate Hk. destruct ttn as [ta|].
        - apply wp_bind. eapply wp_res; [exact Hn|exact Hk|cbv beta iota]. run (wp_intern P). intros h s5 H5.
          pose proof (in_step _ _ _ _ _ H5). split; [assumption|].
          destruct (wfk_kids _ _ _ _ _ Hw4 Hn) as (Hkids & _ & _). brk. elen. split; [|lia].
          eapply wfk_mk; [elift|assumption|exact I| |reflexivity]. cbn [kids] in *. eapply Forall_impl; [|exact Hkids].
          intros xc Hxc. eapply kid_ok_ext; [|eapply kid_ok_mono; [|exact Hxc]]; [sext|cbn; tauto].
        - apply wp_ret. split; [apply step_refl; sinv|]. split; [|assumption]. eapply wfk_kind; [exact Hw4|exact Hn|reflexivity]. }
      intros sig s5 (H5 & Hw5 & Hlt5). lens. destruct (wfk_node _ _ _ _ Hw5) as (n & Hn & Hk).
      run (wp_modify_shape P KSig sig (set_function_class fc) s5 n); try assumption.
      { destruct n; cbn in Hk; try discriminate; reflexivity. }
      { destruct n; cbn in Hk; try discriminate; exact I. }
      { destruct n; cbn in Hk; try discriminate; reflexivity. }
      { destruct n; cbn in Hk; try discriminate; auto. }
      intros _ s6 [S1 S2 S3 S4 S5 S6 S7 S8].
      assert (He5 : ext (s_store s) (s_store s5)) by (brk; sext).
      assert (Hle : length (s_store s) <= sig).
      { assert (He3 : ext (s_store s) (s_store s3)) by (clear He5; brk; sext). apply ext_length in He3. lia. }
      specialize (S3 _ He5 Hle). apply S2 in Hw5. run (wp_intern P). intros h s7 H7.
      rewrite <- S4 in *. clear H1 H2 H3 H4 H5 A1 A2 A3 He5. brk. elen. split; [mkstep|]. split; [lia|].
      exists sig. split; [assumption|]. split; [|assumption]. eapply wfk_ext; [exact st_ext0|].
      eapply wfk_mono; [|apply wfk_bound, Hw5]. cbn. intros i [Ha Hb]. split; [assumption|lia].
    Qed.

    Lemma wp_variable_encoding P sc s : inv P s -> length (tx s) < NN ->
      wp (demangle_variable_encoding E K sc) (fun h s' => step P 1 s s' /\ length (s_store s) <= h /\
        exists ty, nth_error (s_store s') h = Some (NVar None (Some sc) (Some ty)) /\
          wfk (s_store s') (fun i => P i /\ i <> h) KType ty /\ P h) s.
    Proof.
      intros Hi Hl. unfold demangle_variable_encoding. run (HKt QDrop P). intros ty s1 [H1 (Hw & Hlt & Hptr)]. lens.
      destruct (wfk_node _ _ _ _ Hw) as (n & Hn & Hk). apply wp_bind. eapply wp_res; [exact Hn|exact Hk|cbv beta iota].
      assert (Hfin : forall s2, inv P s2 -> ext (s_store s) (s_store s2) -> length (tx s2) <= length (tx s1) ->
        wfk (s_store s2) P KType ty -> wp (intern E (NVar None (Some sc) (Some ty)))
        (fun h s' => step P 1 s s' /\ length (s_store s) <= h /\
        exists ty, nth_error (s_store s') h = Some (NVar None (Some sc) (Some ty)) /\
          wfk (s_store s') (fun i => P i /\ i <> h) KType ty /\ P h) s2).
      { intros s2 Hi2 He2 Hl2 Hw2. eapply wp_mono; [apply (wp_intern P); assumption|]. intros h s3 H3. cbv beta in H3. clear H1. brk. elen.
        split; [mkstep|]. split; [lia|]. exists ty. split; [assumption|]. split; [|assumption].
        eapply wfk_ext; [exact st_ext0|]. eapply wfk_mono; [|apply wfk_bound, Hw2]. cbn. intros i [Ha Hb]. split; [assumption|lia]. }
      assert (He1 : ext (s_store s) (s_store s1)) by apply (st_ext _ _ _ _ H1).
      apply wp_bind. eapply wp_mono with (Q := fun _ s2 => inv P s2 /\ ext (s_store s) (s_store s2) /\ length (tx s2) <= length (tx s1) /\ wfk (s_store s2) P KType ty).
      2: { intros _ s2 (Ha & Hb & Hc & Hd). apply Hfin; assumption. }
      assert (Hother : is_type n = true -> wp ('(q, _) <- demangle_qualifiers;; modify KType ty (set_quals q))
        (fun _ s2 => inv P s2 /\ ext (s_store s) (s_store s2) /\ length (tx s2) <= length (tx s1) /\ wfk (s_store s2) P KType ty) s1).
      { intros Hty. lexr lex_qualifiers. intros [q mb] s2 [H2 A2]. pose proof (adv_store _ _ _ A2) as (Hst & _ & _). lens.
        assert (Hn2 : nth_error (s_store s2) ty = Some n) by (rewrite Hst; assumption).
        eapply wp_mono; [apply (wp_modify_quals P KType ty (fun _ => q) s2 n); [sinv|assumption|exact Hk|exact Hty]|].
        intros _ s3 [S1 S2 S3 S4 S5 S6 S7 S8]. split; [assumption|]. split; [apply S3; [rewrite Hst|]; assumption|].
        split; [rewrite S4; lia|]. apply S2. rewrite Hst. assumption. }
      destruct n; try (apply Hother; reflexivity); try discriminate Hk. clear Hother.
      specialize (Hptr _ _ _ _ Hn).
      lexr lex_pointer_ext. intros qx s2 [H2 A2]. pose proof (adv_store _ _ _ A2) as (Hst & _ & _). lens.
      rewrite <- Hst in Hw, Hn, He1.
      run (wp_modify_quals P KPtr ty (fun old => N.lor old qx) s2 (NPtr q a cls pointee)); try assumption; try reflexivity; try sinv.
      intros _ s3 [S1 S2 S3 S4 S5 S6 S7 S8]. specialize (S3 _ He1 Hlt). apply S2 in Hw. cbn [node_quals] in S5.
      apply wp_bind. eapply wp_res; [exact S5|reflexivity|cbv beta iota].
      lexr lex_qualifiers. intros [extra mb] s4 [H4 A4]. pose proof (adv_store _ _ _ A4) as (Hst4 & _ & _). lens.
      rewrite S4 in *. rewrite <- Hst4 in S3, Hw, S5.
      apply wp_bind. eapply wp_mono with (Q := fun _ s' => step P 0 s4 s').
      { destruct cls; [|apply wp_ret, step_refl; sinv]. run (wp_fq_type P). intros x s5 [H5 _]. apply wp_ret. eapply step_le; [|exact H5]; lia. }
      intros _ s5 H5. lens. pose proof (st_ext _ _ _ _ H5) as He5.
      assert (Hw5 : wfk (s_store s5) P KType ty) by (eapply wfk_ext; eassumption).
      assert (Hn5 : nth_error (s_store s5) ty = Some (NPtr (N.lor q qx) a cls pointee)) by (apply He5; assumption).
      destruct (wfk_kids _ _ _ _ _ Hw5 Hn5) as (Hkids & _ & _). cbn [kids] in Hkids. apply Forall_app in Hkids.
      destruct Hkids as [_ Hkids]. inversion Hkids as [|x l Hkx _]; subst. destruct Hkx as [_ (np & Hnp & Hkp)]. cbn [snd fst] in Hnp, Hkp.
      eapply wp_mono; [apply (wp_modify_quals P KType pointee (fun old => N.lor old extra) s5 np); [sinv|assumption|exact Hkp|exact Hkp]|].
      intros _ s6 [T1 T2 T3 T4 T5 T6 T7 T8]. split; [assumption|]. split; [|split; [rewrite T4; lia|apply T2; assumption]].
      apply T3; [eapply ext_trans; eassumption|assumption].
    Qed.

    Definition enc_post (P : handle -> Prop) (base : st) (qn : handle) (s1 : st) (h : handle) (s' : st) : Prop :=
      inv P s' /\ ext (s_store base) (s_store s') /\ length (tx s') + 1 <= length (tx s1) /\ length (s_store s1) <= h /\ P h /\
      wfk (s_store s') (fun i => P i /\ i <> h) KQual qn /\
      exists n, nth_error (s_store s') h = Some n /\
        ((exists sc ty, n = NVar None (Some sc) (Some ty) /\ wfk (s_store s') (fun i => P i /\ i <> h) KType ty) \/
         (exists sig, n = NFunc None sig /\ wfk (s_store s') (fun i => P i /\ i <> h) KSig sig)).

    Lemma set_store_same s : set_store (s_store s) s = s.
    Proof. destruct s; reflexivity. Qed.
    Lemma wfk_below sg sg' P k h j : ext sg sg' -> wfk sg P k h -> length sg <= j -> wfk sg' (fun i => P i /\ i <> j) k h.
    Proof.
      intros He Hw Hj. eapply wfk_ext; [exact He|]. eapply wfk_mono; [|apply wfk_bound, Hw].
      cbn. intros i [Ha Hb]. split; [assumption|lia].
    Qed.

    Lemma wp_encoded P s qn s1 : step P 1 s s1 -> sym_name_post P s qn s1 -> length (tx s1) < NN ->
      wp (demangle_encoded_symbol E K qn) (enc_post P s qn s1) s1.
    Proof.
      intros H1 (Hq & Hqlt & c & pre & id & n & Hqn & Hcn & Hnid & Hidn & Hwid & Hcase) Hl.
      unfold demangle_encoded_symbol. apply wp_bind, wp_text, wp_bind, wp_ok_or; [oke|]. intros c0 Hc0.
      apply wp_if; intros Hc1.
      - lexa at_storage. intros sc s2 [H2 A2]. lens.
        eapply wp_mono; [apply (wp_variable_encoding P); [sinv|lia]|]. intros h s3 (H3 & Hlt & ty & Hn & Hw & HP).
        pose proof (adv_store _ _ _ A2) as (Hst & _ & _). rewrite Hst in Hlt. lens.
        assert (He : ext (s_store s1) (s_store s3)) by (rewrite <- Hst; apply (st_ext _ _ _ _ H3)).
        split; [sinv|]. split; [eapply ext_trans; [apply (st_ext _ _ _ _ H1)|exact He]|]. split; [lia|].
        split; [assumption|]. split; [assumption|]. split; [eapply wfk_below; eassumption|].
        exists (NVar None (Some sc) (Some ty)). split; [assumption|]. left. eauto.
      - assert (exists P' : handle -> Prop, (forall i, P' i -> P i) /\ inv P' s1 /\
              ((exists nm, n = NNamed None nm) \/ (length (s_store s) <= id /\ P' = (fun i => P i /\ i <> id)))) as (P' & HPP & Hi' & Hc').
        { destruct Hcase as [Hnm|[Hlt Hi']].
          - exists P. split; [auto|]. split; [sinv|]. left; assumption.
          - exists (fun i => P i /\ i <> id). split; [tauto|]. split; [assumption|]. right; auto. }
        run (wp_function_encoding P'). intros h s2 (H2 & Hlt & sig & Hn & Hw & HP). lens.
        pose proof (st_ext _ _ _ _ H2) as He2. pose proof (st_ext _ _ _ _ H1) as He1.
        assert (Hw' : wfk (s_store s2) (fun i => P i /\ i <> h) KSig sig).
        { eapply wfk_mono; [|exact Hw]. cbn. intros i [Ha Hb]. auto. }
        apply wp_bind. eapply wp_res; [exact Hn|reflexivity|cbv beta iota].
        destruct (wfk_node _ _ _ _ Hw) as (sn & Hsn & Hks).
        apply wp_bind. eapply wp_res; [exact Hsn|exact Hks|cbv beta iota].
        assert (Hq2 : wfk (s_store s2) P KQual qn) by (eapply wfk_ext; eassumption).
        assert (Huq : unqualified_identifier qn s2 = Ok (Some id, s2)).
        { unfold unqualified_identifier, bind, res_, resolve. rewrite (He2 _ _ Hqn). cbn [hkind].
          rewrite (He2 _ _ Hcn). cbn [hkind]. rewrite rev_app_distr. cbn [rev app].
          rewrite (He2 _ _ Hnid). cbn [hkind]. rewrite Hidn. reflexivity. }
        apply wp_bind. eapply wp_eq; [exact Huq|]. apply wp_bind, wp_ok_or; [oke|]. intros uqn Hu. injection Hu as <-.
        apply wp_bind. eapply wp_modify; [apply He2; exact Hnid|exact Hidn|]. apply wp_ret.
        destruct (match n with NConv _ _ => true | _ => false end) eqn:Hconv.
        + destruct n; try discriminate Hconv. clear Hconv. cbn [set_target].
          destruct Hc' as [[nm Hnm]|[Hltid ->]]; [discriminate|].
          assert (Hid_h : id < length (s_store s1)) by (apply nth_error_Some; congruence).
          set (n' := NConv tp (sig_return sn)).
          assert (Hwid1 := wfk_kids _ _ _ _ _ Hwid Hnid). destruct Hwid1 as (Hkn & _ & HPid). cbn [kids] in Hkn.
          apply Forall_app in Hkn. destruct Hkn as [Hktp _].
          assert (Hret : Forall (kid_ok (s_store s2) (fun i => (P i /\ i <> id) /\ i <> h)) (opt_kid KType (sig_return sn))).
          { destruct (wfk_kids _ _ _ _ _ Hw Hsn) as (Hksn & _ & _).
            destruct sn; cbn in Hks; try discriminate Hks; cbn [kids sig_return] in *; unfold fsig_kids in Hksn;
              apply Forall_app in Hksn; (eapply Forall_impl; [|apply Hksn]); intros xc; apply kid_ok_mono; cbn; tauto. }
          assert (Hktp2 : Forall (kid_ok (s_store s2) (fun i => (P i /\ i <> id) /\ i <> h)) (opt_kid KNodes tp)).
          { destruct tp as [tp|]; [|constructor]. cbn [opt_kid] in *. inversion Hktp as [|x l Hkx _]; subst. constructor; [|constructor].
            change (wfk (s_store s1) (fun i => P i /\ i <> id) KNodes tp) in Hkx.
            change (wfk (s_store s2) (fun i => (P i /\ i <> id) /\ i <> h) KNodes tp).
            eapply wfk_below; eassumption. }
          assert (Hk' : Forall (kid_ok (s_store s2) (fun i => (P i /\ i <> id) /\ i <> h)) (kids n')).
          { cbn [kids n']. apply Forall_app. split; assumption. }
          assert (Hup : forall k x, wfk (s_store s2) P k x -> wfk (upd (s_store s2) id n') P k x).
          { intros k x Hx. eapply wfk_relink; [apply He2; exact Hnid|exact I|exact I| |exact Hx].
            eapply Forall_impl; [|exact Hk']. intros xc. apply kid_ok_mono. cbn. tauto. }
          assert (Hup' : forall k x, wfk (s_store s2) (fun i => P i /\ i <> h) k x -> wfk (upd (s_store s2) id n') (fun i => P i /\ i <> h) k x).
          { intros k x Hx. eapply wfk_relink; [apply He2; exact Hnid|exact I|exact I| |exact Hx].
            eapply Forall_impl; [|exact Hk']. intros xc. apply kid_ok_mono. cbn. tauto. }
          split. { eapply inv_upd; [eapply inv_mono; [|sinv]; exact HPP|apply He2; exact Hnid|reflexivity|exact Hup]. }
          cbn [set_store s_store]. split; [apply ext_upd; [eapply ext_trans; eassumption|assumption]|].
          split; [change (tx (set_store (upd (s_store s2) id n') s2)) with (tx s2); lia|].
          split; [assumption|]. split; [apply HPP; assumption|]. split; [apply Hup'; eapply wfk_below; eassumption|].
          exists (NFunc None sig). split; [|right; exists sig; split; [reflexivity|apply Hup', Hw']].
          rewrite nth_upd_other; [assumption|lia].
        + assert (Hsame : set_target (sig_return sn) n = n) by (destruct n; try reflexivity; discriminate Hconv).
          rewrite Hsame, (upd_same _ _ _ (He2 _ _ Hnid)), set_store_same.
          split; [eapply inv_mono; [|sinv]; exact HPP|]. split; [eapply ext_trans; eassumption|]. split; [lia|].
          split; [assumption|]. split; [apply HPP; assumption|]. split; [eapply wfk_below; eassumption|].
          exists (NFunc None sig). split; [assumption|]. right. eauto.
    Qed.

    Definition decl_post (P : handle -> Prop) (s : st) (h : handle) (s' : st) : Prop :=
      step P 1 s s' /\ wfk (s_store s') P KSym h /\ length (s_store s) <= h.
    Lemma wp_declarator P s : inv P s -> length (tx s) < NN -> wp (demangle_declarator E K) (decl_post P s) s.
    Proof.
      intros Hi Hl. unfold demangle_declarator. run (wp_fq_sym P). intros qn s1 [H1 Hqn]. lens.
      run (wp_encoded P s qn s1); try assumption. intros h s2 Hpost.
      destruct Hpost as (Hi2 & He2 & Hl2 & Hlt & HP & Hq & n & Hn & Hcase).
      assert (Hkn : hkind KSym n = true) by (destruct Hcase as [(sc & ty & -> & _)|(sig & -> & _)]; reflexivity).
      apply wp_bind. eapply wp_modify; [exact Hn|exact Hkn|].
      set (n' := set_sym_name qn n).
      assert (Hk' : Forall (kid_ok (s_store s2) (fun i => P i /\ i <> h)) (kids n')).
      { destruct Hcase as [(sc & ty & -> & Hw)|(sig & -> & Hw)]; cbn [n' set_sym_name kids opt_kid app];
          (constructor; [exact Hq|constructor; [exact Hw|constructor]]). }
      assert (Hsim : sim n n') by (destruct Hcase as [(sc & ty & -> & _)|(sig & -> & _)]; exact I).
      assert (Hloc : local_ok okc n').
      { destruct Hcase as [(sc & ty & -> & _)|(sig & -> & _)]; cbn; try exact I; try discriminate. }
      assert (Hup : forall k x, wfk (s_store s2) P k x -> wfk (upd (s_store s2) h n') P k x)
        by (intros k x Hx; eapply wfk_relink; eassumption).
      set (s3 := set_store (upd (s_store s2) h n') s2).
      assert (Hi3 : inv P s3).
      { eapply inv_upd; [exact Hi2|exact Hn| |exact Hup]. destruct Hcase as [(sc & ty & -> & _)|(sig & -> & _)]; reflexivity. }
      assert (Hq3 : wfk (s_store s3) P KQual qn) by (apply Hup; eapply wfk_mono; [|exact Hq]; cbn; tauto).
      assert (Hs3 : wfk (s_store s3) P KSym h).
      { eapply wfk_relink_root; try eassumption. rewrite <- (sim_hkind _ _ KSym Hsim). exact Hkn. }
      pose proof (st_ext _ _ _ _ H1) as He1. pose proof (ext_length _ _ He1).
      assert (Hd : decl_post P s h s3).
      { split; [split; [exact Hi3|apply ext_upd; [assumption|lia]|change (tx s3) with (tx s2); lia]|]. split; [assumption|lia]. }
      clearbody s3. apply wp_bind. eapply wp_mono; [apply wp_unqualified_identifier; exact Hq3|].
      intros o s4 [-> Ho]. apply wp_bind, wp_ok_or; [oke|]. intros uqn ->. specialize (Ho _ eq_refl).
      destruct (wfk_node _ _ _ _ Ho) as (m & Hm & Hkm). apply wp_bind. eapply wp_res; [exact Hm|exact Hkm|cbv beta iota].
      destruct m; try (apply wp_ret; exact Hd). destruct target; [apply wp_ret; exact Hd|oke].
    Qed.

    (** ** Special symbols *)
    Definition sym_post (P : handle -> Prop) (s : st) (h : handle) (s' : st) : Prop :=
      step P 0 s s' /\ wfk (s_store s') P KSym h.

    Lemma wp_synth_id (P Q : handle -> Prop) d s : inv P s -> (forall i, length (s_store s) <= i -> Q i) ->
      wfk (s_store s) Q KIdent d ->
      wp (synthesize_from_id E d) (fun h s' => step P 0 s s' /\ wfk (s_store s') Q KQual h /\ length (s_store s) <= h) s.
    Proof.
      intros Hi HQ Hd. unfold synthesize_from_id. run (wp_intern P). intros c s1 H1.
      pose proof (in_step _ _ _ _ _ H1) as H1'. run (wp_intern P). intros q s2 H2. brk. elen.
      split; [mkstep|]. split; [|lia].
      assert (Hid : Forall (wfk (s_store s2) Q KIdent) [d]) by (constructor; [elift|constructor]).
      assert (Hc : kid_ok (s_store s2) (fun i => Q i) (KIdents, c)).
      { eapply nodes_idents; [|elift|exact Hid].
        eapply wfk_mk; [elift|apply HQ; lia|exact I| |reflexivity]. cbn [kids]. apply Forall_any with (k := KIdent).
        exact Hid. }
      eapply wfk_mk; [elift|apply HQ; lia|exact I| |reflexivity]. constructor; [exact Hc|constructor].
    Qed.
    Lemma wp_synth_name P nm s : inv P s -> oks nm ->
      wp (synthesize_from_name E nm) (fun h s' => step P 0 s s' /\ wfk (s_store s') P KQual h) s.
    Proof.
      intros Hi Hnm. unfold synthesize_from_name. run (wp_intern P). intros id s1 H1.
      pose proof (in_step _ _ _ _ _ H1) as H1'.
      eapply wp_mono; [apply (wp_synth_id P P); [sinv|apply (i_fresh _ _ (st_inv _ _ _ _ H1'))|]|].
      - brk. mkwf. assumption.
      - intros h s2 (H2 & Hw & _). brk. split; [mkstep|assumption].
    Qed.

    Lemma wp_named_chain P nm s : inv P s -> oks nm -> length (tx s) < NN ->
      wp (ni <- intern E (NNamed None nm) ;; demangle_name_scope_chain E K ni)
         (fun qn s' => step P 1 s s' /\ wfk (s_store s') P KQual qn) s.
    Proof.
      intros Hi Hnm Hl. run (wp_intern P). intros ni s1 H1. pose proof (in_step _ _ _ _ _ H1) as H1'. lens.
      eapply wp_mono; [apply (wp_chain P P); [auto|sinv| |lia]|].
      - brk. mkwf. assumption.
      - intros qn s2 [H2 (Hq & _)]. brk. split; [mkstep|assumption].
    Qed.
    Lemma wp_assoc {A B C} (m : M A) (f : A -> M B) (g : B -> M C) (Q : C -> st -> Prop) s :
      wp (y <- (x <- m ;; f x) ;; g y) Q s -> wp (x <- m ;; y <- f x ;; g y) Q s.
    Proof. unfold Lex.wp, bind. destruct (m s) as [[]| | |]; auto. Qed.

    Lemma wp_special_table P k s : inv P s -> length (tx s) < NN ->
      wp (demangle_special_table_symbol_node E K k) (sym_post P s) s.
    Proof.
      intros Hi Hl. unfold demangle_special_table_symbol_node.
      apply wp_bind. eapply wp_mono with (Q := fun nm s' => s' = s /\ oks nm).
      { destruct k; try oke; apply wp_ret; (split; [reflexivity|apply oks_lit; [assumption|reflexivity]]). }
      intros nm s' [-> Hnm]. apply wp_assoc. run (wp_named_chain P); try assumption. intros qn s1 [H1 Hq]. lens.
      lexr lex_eat_if. intros o s2 [H2 A2]. apply wp_bind, wp_ok_or; [oke|]. intros x ->.
      lexr lex_qualifiers. intros [q mb] s3 [H3 A3]. lexr lex_eat_char. intros b s4 [H4 A4]. lens.
      apply wp_bind. eapply wp_mono with (Q := fun o s' => step P 0 s4 s' /\ forall t, o = Some t -> wfk (s_store s') P KQual t).
      { destruct b; [apply wp_ret; split; [apply step_refl; sinv|discriminate]|].
        run (wp_fq_type P). intros t s5 [H5 Ht]. apply wp_ret. split; [eapply step_le; [|exact H5]; lia|].
        intros t' Heq; injection Heq as <-. assumption. }
      intros tg s5 [H5 Ht]. run (wp_intern P). intros h s6 H6. brk. split; [mkstep|].
      destruct tg as [t|]; [specialize (Ht t eq_refl)|]; mkwf.
    Qed.

    Lemma wp_lsg P th s : inv P s -> length (tx s) < NN ->
      wp (demangle_local_static_guard E K th) (sym_post P s) s.
    Proof.
      intros Hi Hl. unfold demangle_local_static_guard. run (wp_intern P). intros l s1 H1.
      pose proof (in_step _ _ _ _ _ H1) as H1'. lens. pose proof (in_nth _ _ _ _ _ H1) as Hn1.
      pose proof (in_eq _ _ _ _ _ H1) as Heq.
      run (wp_chain P P); [auto| |].
      { clear H1'. brk. mkwf. }
      intros qn s2 [H2 (Hq & _)]. lens. pose proof (st_ext _ _ _ _ H2 _ _ Hn1) as Hn2.
      lexr lex_eat_str. intros v4 s3 [H3 A3]. apply wp_bind.
      eapply wp_mono with (Q := fun _ s' => step P 0 s3 s' /\ s_store s' = s_store s3).
      { destruct v4; [apply wp_ret; split; [apply step_refl; sinv|reflexivity]|].
        lexr lex_eat_char. intros v5 s4 [H4 A4]. destruct v5; [|oke]. apply wp_ret.
        split; [eapply step_le; [|exact H4]; lia|apply (adv_store _ _ _ A4)]. }
      intros vis s4 [H4 Hst4]. lens. pose proof (adv_store _ _ _ A3) as (Hst3 & _ & _). rewrite Hst3 in Hst4. clear Hst3.
      rewrite <- Hst4 in Hn2, Hq.
      assert (He4 : ext (s_store s) (s_store s4)) by (clear H1; brk; sext).
      assert (Hlen4 : length (tx s4) <= length (tx s)) by lia.
      apply wp_bind, wp_text, wp_bind.
      eapply wp_mono with (Q := fun _ s' => inv P s' /\ ext (s_store s) (s_store s') /\ length (tx s') <= length (tx s) /\ wfk (s_store s') P KQual qn).
      { apply wp_if; intros _; [apply wp_ret; split; [sinv|]; auto|].
        lexr lex_unsigned. intros z s5 [H5 A5]. lens. lexr lex_to_u32. intros i s6 [H6 A6]. lens.
        pose proof (adv_store _ _ _ A5) as (Hst5 & _ & _). pose proof (adv_store _ _ _ A6) as (Hst6 & _ & _).
        rewrite <- Hst5, <- Hst6 in Hn2, Hq, He4.
        eapply wp_mono; [eapply (wp_modify_shape P KLsg l (set_scope_index i) s6); [sinv|exact Hn2|reflexivity|reflexivity|exact I|reflexivity|auto]|].
        intros _ s7 [S1 S2 S3 S4 S5 S6 S7 S8]. split; [assumption|]. split; [apply S3; [assumption|lia]|].
        split; [rewrite S4; lia|apply S2; assumption]. }
      intros _ s5 (Hi5 & He5 & Hl5 & Hq5). run (wp_intern P). intros h s6 H6. clear - H6 Hi5 He5 Hl5 Hq5. brk. split; [mkstep|]. mkwf.
    Qed.

    Lemma wp_untyped P nm s : inv P s -> oks nm -> length (tx s) < NN ->
      wp (demangle_untyped_variable E K nm) (sym_post P s) s.
    Proof.
      intros Hi Hnm Hl. unfold demangle_untyped_variable. apply wp_assoc. run (wp_named_chain P); try assumption.
      intros qn s1 [H1 Hq]. lens. lexr lex_eat_char. intros b s2 [H2 A2]. destruct b; [|oke].
      run (wp_intern P). intros h s3 H3. brk. split; [mkstep|]. mkwf.
    Qed.

    Lemma wp_rtti_bcd P s : inv P s -> length (tx s) < NN ->
      wp (demangle_rtti_base_class_descriptor_node E K) (sym_post P s) s.
    Proof.
      intros Hi Hl. unfold demangle_rtti_base_class_descriptor_node.
      lexr lex_unsigned. intros a s1 [H1 A1]. lexr lex_to_u32. intros a' s2 [H2 A2].
      lexr lex_signed. intros b s3 [H3 A3]. lexr lex_to_i32. intros b' s4 [H4 A4].
      lexr lex_unsigned. intros c s5 [H5 A5]. lexr lex_to_u32. intros c' s6 [H6 A6].
      lexr lex_unsigned. intros d s7 [H7 A7]. lexr lex_to_u32. intros d' s8 [H8 A8].
      lens. assert (H18 : step P 0 s s8) by (brk; mkstep).
      clear H1 H2 H3 H4 H5 H6 H7 A1 A2 A3 A4 A5 A6 A7 A8.
      run (wp_intern P). intros r s9 H9. pose proof (in_step _ _ _ _ _ H9) as H9'. lens.
      run (wp_chain P P); [auto| |].
      { clear H18 H9' H8. brk. mkwf. }
      intros qn s10 [H10 (Hq & _)]. lexr lex_expect_char. intros _ s11 [H11 A11]. run (wp_intern P). intros h s12 H12.
      lens. clear H8. assert (length (tx s8) <= length (tx s)) by lia. brk. split; [mkstep|]. mkwf.
    Qed.

    Lemma wp_init_fini P dt s : inv P s -> length (tx s) < NN ->
      wp (demangle_init_fini_stub E K dt) (sym_post P s) s.
    Proof.
      intros Hi Hl. unfold demangle_init_fini_stub. lexr lex_eat_char. intros known s1 [H1 A1]. lens.
      run (wp_declarator P). intros sym s2 (H2 & Hw2 & Hlt2). lens.
      pose proof (adv_store _ _ _ A1) as (Hst1 & _ & _). rewrite Hst1 in Hlt2.
      assert (H12 : step P 1 s s2) by (clear A1; brk; mkstep). clear H1 A1 H2.
      destruct (wfk_node _ _ _ _ Hw2) as (n & Hn & Hk). apply wp_bind. eapply wp_res; [exact Hn|exact Hk|cbv beta iota].
      destruct n; try oke; try discriminate Hk.
      - (* variable *)
        apply wp_bind. eapply wp_mono with (Q := fun _ s' => step P 0 s2 s').
        { destruct known; (eapply wp_mono; [eapply wp_lex; [first [apply lex_expect_str; oke|apply lex_expect_char; oke]|sinv]|]); intros _ s3 [H3 A3]; (eapply step_le; [|exact H3]; lia). }
        intros _ s3 H3. lens. run (wp_function_encoding P). intros f s4 (H4 & Hlt4 & sig & Hf & Hsig & HPf). lens.
        assert (Hv2 : wfk (s_store s2) P KVar sym) by (eapply wfk_kind; [exact Hw2|exact Hn|reflexivity]).
        assert (Hv4 : wfk (s_store s4) (fun i => P i /\ i <> f) KVar sym).
        { eapply wfk_below; [apply (st_ext _ _ _ _ H4)| |exact Hlt4]. eapply wfk_ext; [apply (st_ext _ _ _ _ H3)|exact Hv2]. }
        assert (Hf4 : f < length (s_store s4)) by (apply nth_error_Some; congruence).
        run (wp_intern P). intros d s5 H5. pose proof (in_step _ _ _ _ _ H5) as H5'. lens.
        pose proof (ext_length _ _ (st_ext _ _ _ _ H5')).
        pose proof (st_ext _ _ _ _ H5') as He5.
        run (wp_synth_id P (fun i => P i /\ i <> f)).
        { intros i Hle. split; [|lia]. apply (i_fresh _ _ (st_inv _ _ _ _ H5')). assumption. }
        { clear H4 H3 H12. eapply wfk_mk; [apply (in_nth _ _ _ _ _ H5)| |exact I| |reflexivity].
          - split; [apply (in_P _ _ _ _ _ H5)|]. rewrite (in_eq _ _ _ _ _ H5). lia.
          - cbn [kids opt_kid app]. constructor; [|constructor].
            change (wfk (s_store s5) (fun i => P i /\ i <> f) KVar sym). eapply wfk_ext; eassumption. }
        intros nm s6 (H6 & Hnm & _). lens. pose proof (st_ext _ _ _ _ H6) as He6.
        assert (Hf6 : nth_error (s_store s6) f = Some (NFunc None sig)) by (apply He6, He5; assumption).
        assert (Hsig6 : wfk (s_store s6) (fun i => P i /\ i <> f) KSig sig) by (eapply wfk_ext; [exact He6|]; eapply wfk_ext; [exact He5|assumption]).
        apply wp_bind. eapply wp_modify; [exact Hf6|reflexivity|]. apply wp_ret. cbn [set_func_name].
        set (n' := NFunc (Some nm) sig).
        assert (Hk' : Forall (kid_ok (s_store s6) (fun i => P i /\ i <> f)) (kids n')).
        { cbn [kids n' opt_kid app]. constructor; [exact Hnm|constructor; [exact Hsig6|constructor]]. }
        split.
        + split.
          * eapply inv_upd; [sinv|exact Hf6|reflexivity|]. intros k x Hx.
            eapply wfk_relink; [exact Hf6|exact I|exact I|exact Hk'|exact Hx].
          * cbn [set_store s_store]. apply ext_upd; [clear H5; brk; sext|]. clear H5; brk. elen. lia.
          * change (tx (set_store (upd (s_store s6) f n') s6)) with (tx s6). lia.
        + cbn [set_store s_store]. eapply wfk_relink_root; [exact Hf6|exact I|exact I|exact Hk'|exact HPf|reflexivity].
      - (* function *)
        apply wp_if; intros _; [oke|]. apply wp_bind, wp_ok_or; [oke|]. intros qn ->.
        destruct (wfk_kids _ _ _ _ _ Hw2 Hn) as (Hkids & _ & HPs). cbn [kids opt_kid app] in Hkids.
        inversion Hkids as [|x l Hkq Hkids']; subst. inversion Hkids' as [|x l Hks _]; subst. clear Hkids Hkids'.
        change (wfk (s_store s2) (fun i => P i /\ i <> sym) KQual qn) in Hkq.
        change (wfk (s_store s2) (fun i => P i /\ i <> sym) KSig sig) in Hks.
        assert (Hs2 : sym < length (s_store s2)) by (apply nth_error_Some; congruence).
        run (wp_intern P). intros d s5 H5. pose proof (in_step _ _ _ _ _ H5) as H5'. lens.
        pose proof (ext_length _ _ (st_ext _ _ _ _ H5')).
        pose proof (st_ext _ _ _ _ H5') as He5.
        run (wp_synth_id P (fun i => P i /\ i <> sym)).
        { intros i Hle. split; [|lia]. apply (i_fresh _ _ (st_inv _ _ _ _ H5')). assumption. }
        { eapply wfk_mk; [apply (in_nth _ _ _ _ _ H5)| |exact I| |reflexivity].
          - split; [apply (in_P _ _ _ _ _ H5)|]. rewrite (in_eq _ _ _ _ _ H5). lia.
          - cbn [kids opt_kid app]. constructor; [|constructor].
            change (wfk (s_store s5) (fun i => P i /\ i <> sym) KQual qn). eapply wfk_ext; eassumption. }
        intros nm s6 (H6 & Hnm & _). lens. pose proof (st_ext _ _ _ _ H6) as He6.
        assert (Hf6 : nth_error (s_store s6) sym = Some (NFunc (Some qn) sig)) by (apply He6, He5; assumption).
        assert (Hsig6 : wfk (s_store s6) (fun i => P i /\ i <> sym) KSig sig) by (eapply wfk_ext; [exact He6|]; eapply wfk_ext; [exact He5|assumption]).
        apply wp_bind. eapply wp_modify; [exact Hf6|reflexivity|]. apply wp_ret. cbn [set_func_name].
        set (n' := NFunc (Some nm) sig).
        assert (Hk' : Forall (kid_ok (s_store s6) (fun i => P i /\ i <> sym)) (kids n')).
        { cbn [kids n' opt_kid app]. constructor; [exact Hnm|constructor; [exact Hsig6|constructor]]. }
        split.
        + split.
          * eapply inv_upd; [sinv|exact Hf6|reflexivity|]. intros k x Hx.
            eapply wfk_relink; [exact Hf6|exact I|exact I|exact Hk'|exact Hx].
          * cbn [set_store s_store]. apply ext_upd; [clear H5; brk; sext|assumption].
          * change (tx (set_store (upd (s_store s6) sym n') s6)) with (tx s6). lia.
        + cbn [set_store s_store]. eapply wfk_relink_root; [exact Hf6|exact I|exact I|exact Hk'|exact HPs|reflexivity].
    Qed.

    Lemma wp_vcall P s : inv P s -> length (tx s) < NN -> wp (demangle_vcall_thunk_node E K) (sym_post P s) s.
    Proof.
      intros Hi Hl. unfold demangle_vcall_thunk_node. run (wp_intern P). intros v s1 H1.
      pose proof (in_step _ _ _ _ _ H1) as H1'. lens. pose proof (in_nth _ _ _ _ _ H1) as Hn1.
      pose proof (in_eq _ _ _ _ _ H1) as Heq.
      run (wp_chain P P); [auto| |].
      { clear H1'. brk. mkwf. }
      intros qn s2 [H2 (Hq & _)]. lens. pose proof (st_ext _ _ _ _ H2 _ _ Hn1) as Hn2.
      lexr lex_expect_str. intros _ s3 [H3 A3]. lexr lex_unsigned. intros off s4 [H4 A4]. lens.
      pose proof (adv_store _ _ _ A3) as (Hst3 & _ & _). pose proof (adv_store _ _ _ A4) as (Hst4 & _ & _).
      rewrite <- Hst3, <- Hst4 in Hn2, Hq.
      assert (He4 : ext (s_store s) (s_store s4)) by (clear H1; brk; sext).
      apply wp_bind. eapply wp_mono; [apply (wp_modify_shape P KVcall v (set_vcall_offset off) s4 (NVcall None 0)); [sinv|exact Hn2|reflexivity|reflexivity|exact I|reflexivity|auto]|]. cbv beta.
      intros _ s5 [S1 S2 S3 S4 S5 S6 S7 S8]. specialize (S3 _ He4 ltac:(lia)). apply S2 in Hq.
      lexr lex_expect_char. intros _ s6 [H6 A6]. lexr lex_cc. intros cc s7 [H7 A7].
      run (wp_intern P). intros sg s8 H8. pose proof (in_step _ _ _ _ _ H8) as H8'.
      run (wp_intern P). intros h s9 H9. lens. rewrite S4 in *. assert (length (tx s7) <= length (tx s)) by lia.
      clear H1 H1' H2 H3 H4. clear Ln Ln0 Ln1 Ln2 Ln3. brk. split; [mkstep|].
      assert (wfk (s_store s9) P KSig sg) by mkwf. mkwf.
    Qed.

    (** ** String literals *)
    Lemma escaped_ascii c : ascii_str (escaped_char c).
    Proof.
      unfold escaped_char. destruct (lookup c escape_table) as [t|] eqn:Hl.
      - cbn [lookup escape_table] in Hl.
        repeat match type of Hl with (if ?b then _ else _) = _ => destruct b end;
          try discriminate Hl; injection Hl as <-; repeat constructor.
      - destruct (in_range 0x20 0x7E c) eqn:Hr.
        + constructor; [|constructor]. unfold in_range in Hr. apply andb_prop in Hr. destruct Hr as [_ Hr].
          apply N.leb_le in Hr. lia.
        + apply Forall_app. split; [repeat constructor|apply hex2_ascii].
    Qed.
    Lemma wp_put c b ob s : bok okc E ob ->
      wp (run_w (w_if b (w_str E (escaped_char c))) ob) (fun b' s' => s' = s /\ bok okc E b') s.
    Proof.
      intros Hb. apply wp_run_w; [|assumption]. apply wok_if. intros _. apply wok_str, oks_ascii; [assumption|apply escaped_ascii].
    Qed.
    Lemma wp_wide P fuel : forall len tr ob s, inv P s -> length (tx s) < fuel -> bok okc E ob ->
      wp (wide_loop E fuel len tr ob) (fun ob' s' => step P 0 s s' /\ bok okc E ob') s.
    Proof.
      induction fuel as [|fuel IH]; intros len tr ob s Hi Hl Hb; [lia|]. cbn [wide_loop].
      lexr lex_eat_char. intros [|] s1 [H1 A1]; lens.
      { apply wp_ret. split; [eapply step_le; [|exact H1]; lia|assumption]. }
      apply wp_bind, wp_text. apply wp_if; intros _; [oke|]. lexr lex_wchar_literal. intros w s2 [H2 A2]. lens.
      apply wp_bind. eapply wp_mono; [apply wp_put; exact Hb|]. intros ob' s3 [-> Hb'].
      eapply wp_mono; [apply IH; [sinv|lia|exact Hb']|]. intros ob2 s3 [H3 Hb2]. split; [|assumption]. brk. mkstep.
    Qed.
    Lemma wp_narrow_out P bytes sz num tr count : forall i ob s, inv P s -> bok okc E ob ->
      wp (narrow_out E bytes sz num i count tr ob) (fun ob' s' => step P 0 s s' /\ bok okc E ob') s.
    Proof.
      induction count as [|count IH]; intros i ob s Hi Hb; cbn [narrow_out].
      { apply wp_ret. split; [apply step_refl; assumption|assumption]. }
      apply wp_bind, wp_ok_or; [oke|]. intros c _. apply wp_bind. eapply wp_mono; [apply wp_put; exact Hb|].
      intros ob' s1 [-> Hb']. apply IH; assumption.
    Qed.
    Lemma wp_string_literal P s : inv P s -> wp (demangle_string_literal E) (sym_post P s) s.
    Proof.
      intros Hi. unfold demangle_string_literal. lexr lex_expect_str. intros _ s1 [H1 A1].
      lexr lex_next. intros f s2 [H2 A2]. apply wp_bind.
      eapply wp_mono with (Q := fun _ s' => s' = s2).
      { apply wp_if; intros _; [apply wp_ret; reflexivity|]. apply wp_if; intros _; [apply wp_ret; reflexivity|oke]. }
      intros wide s' ->. lexr lex_number. intros [len neg] s3 [H3 A3]. apply wp_if; intros _; [oke|].
      apply wp_bind, wp_text, wp_bind, wp_ok_or; [oke|]. intros crc _.
      run (wp_consume_bytes P). intros o s4 (H4 & A4 & _). apply wp_bind, wp_ok_or; [oke|]. intros x ->.
      apply wp_bind, wp_text. apply wp_if; intros _; [oke|].
      apply wp_bind. eapply wp_mono with (Q := fun r s' => step P 0 s4 s' /\ bok okc E (fst (fst r))).
      { destruct wide; cbv zeta.
        - run (wp_wide P); [apply bok_empty|]. intros ob s5 [H5 Hb]. apply wp_ret. split; assumption.
        - apply wp_bind. eapply wp_mono; [apply (narrow_loop_ok okerr); [oke'|apply (i_chars _ _ (st_inv _ _ _ _ H4))|lia]|].
          intros bytes s5 A5. pose proof (step_adv P _ _ _ (st_inv _ _ _ _ H4) A5) as H5.
          apply wp_bind, wp_ok_or; [oke|]. intros sz _. apply wp_bind.
          eapply wp_mono with (Q := fun _ s' => s' = s5).
          { repeat (apply wp_if; intros _; [apply wp_ret; reflexivity|]). oke. }
          intros k s' ->. run (wp_narrow_out P); [apply bok_empty|]. intros ob s6 [H6 Hb]. apply wp_ret.
          split; [|assumption]. clear A5. brk. mkstep. }
      intros [[ob k] tr] s5 [H5 Hb]. cbn [fst] in Hb. apply wp_bind.
      eapply wp_mono; [apply wp_take_text; exact Hb|]. intros t s6 [-> Ht].
      run (wp_intern P). intros h s6 H6. brk. split; [mkstep|]. mkwf. assumption.
    Qed.

    Lemma wp_rtti_td P s : inv P s -> length (tx s) < NN -> wp (rtti_type_descriptor E K) (sym_post P s) s.
    Proof.
      intros Hi Hl. unfold rtti_type_descriptor. run (HKt QResult P). intros t s1 [H1 (Hw & _)].
      lexr lex_expect_str. intros _ s2 [H2 A2]. apply wp_bind, wp_text. apply wp_if; intros _; [|oke].
      run (wp_synth_name P); [apply oks_lit; [assumption|reflexivity]|]. intros qn s3 [H3 Hq].
      run (wp_intern P). intros h s4 H4. brk. split; [mkstep|]. mkwf.
    Qed.

    Lemma wp_special_intrinsic P s : inv P s -> length (tx s) <= NN ->
      wp (demangle_special_intrinsic E K) (fun o s' => step P 0 s s' /\
        match o with Some h => wfk (s_store s') P KSym h | None => s' = s end) s.
    Proof.
      intros Hi Hl. unfold demangle_special_intrinsic.
      apply wp_bind. eapply wp_mono with (Q := fun o s' => step P (match o with Some _ => 1 | None => 0 end) s s' /\ (o = None -> s' = s)).
      { assert (Hgen : forall t s1, inv P s1 -> Forall (fun p => 1 <= length (fst p)) t ->
          wp (consume_special t) (fun o s' => step P (match o with Some _ => 1 | None => 0 end) s1 s' /\ (o = None -> s' = s1)) s1).
        { induction t as [|[p k] t IH]; intros s1 Hi1 Ht; cbn [consume_special].
          - apply wp_ret. split; [apply step_refl; assumption|reflexivity].
          - inversion Ht as [|x l Hp Ht']; subst. cbn [fst] in Hp. apply wp_bind. unfold Lex.wp at 1.
            rewrite eat_str_eq by apply (i_chars _ _ Hi1).
            destruct (strip_prefix p (tx s1)) as [r|] eqn:Hr.
            + apply wp_ret. split; [|discriminate]. apply strip_prefix_spec in Hr.
              apply step_adv; [assumption|]. exists p, r. repeat split; auto.
            + apply IH; assumption. }
        apply Hgen; [assumption|]. repeat constructor. }
      intros [k|] s1 [H1 Hno]; cbv beta iota in *; lens.
      - apply wp_bind. eapply wp_mono with (Q := fun h s' => sym_post P s1 h s').
        { destruct k; try oke.
          all: first [ apply wp_special_table; [sinv|lia] | apply wp_vcall; [sinv|lia] | apply wp_lsg; [sinv|lia]
            | apply wp_string_literal; sinv | apply wp_rtti_td; [sinv|lia] | apply wp_rtti_bcd; [sinv|lia]
            | apply wp_untyped; [sinv|apply oks_lit; [assumption|reflexivity]|lia] | apply wp_init_fini; [sinv|lia] ]. }
        intros h s2 [H2 Hw]. apply wp_ret. brk. split; [mkstep|assumption].
      - apply wp_ret. split; [assumption|auto].
    Qed.

    Lemma wp_md5 P s : inv P s -> wp (demangle_md5_name E) (fun h s' => step P 1 s s' /\ wfk (s_store s') P KSym h) s.
    Proof.
      intros Hi. unfold demangle_md5_name. apply wp_bind, wp_text. apply wp_bind. unfold expect_str. apply wp_bind.
      unfold Lex.wp at 1. rewrite eat_str_eq by apply (i_chars _ _ Hi).
      destruct (strip_prefix (L "??@") (tx s)) as [r|] eqn:Hr; [|oke]. apply strip_prefix_spec in Hr.
      apply wp_ret.
      assert (A1 : adv 3 s (st_at r s)) by (exists (L "??@"), r; repeat split; [exact Hr|cbn; lia]).
      pose proof (step_adv P _ _ _ Hi A1) as H1. apply wp_bind, wp_text. rewrite tx_st_at.
      apply wp_bind, wp_ok_or; [oke|]. intros stop Hstop. apply find_char_spec in Hstop.
      destruct Hstop as (a & b & Hab & Hst & _).
      apply wp_bind. unfold Lex.wp at 1. rewrite consume_bytes_eq by apply chars_ok_st_at. rewrite tx_st_at.
      assert (Hsp : split_bytes (stop + 1) r = Some (a ++ [ch "@"], b)).
      { apply split_bytes_spec. rewrite <- app_assoc. split; [exact Hab|]. rewrite str_bytes_app, Hst. reflexivity. }
      rewrite Hsp. apply wp_bind, wp_ok_or; [oke|]. intros x _. clear x.
      rewrite st_at_st_at. assert (A2 : adv 3 s (st_at b s)).
      { exists (L "??@" ++ a ++ [ch "@"]), b. rewrite <- !app_assoc. repeat split; [rewrite Hr, Hab; reflexivity|cbn; lia]. }
      pose proof (step_adv P _ _ _ Hi A2) as H2. apply wp_bind. unfold Lex.wp at 1.
      rewrite eat_str_eq by apply chars_ok_st_at. rewrite tx_st_at.
      assert (Hfin : forall s' m, step P 3 s s' -> oks m ->
        wp (qn <- synthesize_from_name E m ;; intern E (NMd5 qn)) (fun h s'' => step P 1 s s'' /\ wfk (s_store s'') P KSym h) s').
      { intros s' m Hs' Hm. run (wp_synth_name P). intros qn s3 [H3 Hq]. run (wp_intern P). intros h s4 H4.
        clear H1 H2 A1 A2. brk. split; [mkstep|]. mkwf. }
      destruct (strip_prefix (L "??_R4@") b) as [r4|] eqn:Hr4.
      - apply strip_prefix_spec in Hr4. rewrite st_at_st_at.
        replace (split_bytes _ _) with (Some (L "??@" ++ a ++ [ch "@"] ++ L "??_R4@", r4)).
        + apply Hfin.
          * apply step_adv; [assumption|]. exists (L "??@" ++ a ++ [ch "@"] ++ L "??_R4@"), r4. rewrite <- !app_assoc.
            repeat split; [rewrite Hr, Hab, Hr4; reflexivity|cbn; lia].
          * eapply inv_suf_oks with (b := r4); [exact Hi|]. rewrite Hr, Hab, Hr4, <- !app_assoc. reflexivity.
        + symmetry. apply split_bytes_spec. rewrite <- !app_assoc. split; [rewrite Hr, Hab, Hr4; reflexivity|].
          rewrite !str_bytes_app, Hst. change (str_bytes (L "??@")) with 3. change (str_bytes (L "??_R4@")) with 6.
          change (str_bytes [ch "@"]) with 1. lia.
      - replace (split_bytes _ _) with (Some (L "??@" ++ a ++ [ch "@"], b)).
        + apply Hfin; [assumption|]. eapply inv_suf_oks with (b := b); [exact Hi|]. rewrite Hr, Hab, <- !app_assoc. reflexivity.
        + symmetry. apply split_bytes_spec. rewrite <- !app_assoc. split; [rewrite Hr, Hab; reflexivity|].
          rewrite !str_bytes_app, Hst. change (str_bytes (L "??@")) with 3. change (str_bytes [ch "@"]) with 1. lia.
    Qed.

    Lemma wp_typeinfo P s : inv P s -> length (tx s) <= NN ->
      wp (demangle_typeinfo_name E K) (fun h s' => step P 1 s s' /\ wfk (s_store s') P KSym h) s.
    Proof.
      intros Hi Hl. unfold demangle_typeinfo_name. lexr lex_expect_char. intros _ s1 [H1 A1]. lens.
      run (HKt QResult P). intros t s2 [H2 (Hw & _)]. apply wp_bind, wp_text. apply wp_if; intros _; [|oke].
      run (wp_intern P). intros h s3 H3. brk. split; [mkstep|]. mkwf.
    Qed.

    Lemma wp_do_parse P s : inv P s -> parse_pre s -> length (tx s) <= NN ->
      wp (do_parse E K) (fun h s' => step P 1 s s' /\ wfk (s_store s') P KSym h) s.
    Proof.
      intros Hi Hpre Hl. unfold do_parse. apply wp_bind, wp_text.
      apply wp_if; intros Hdot; [apply wp_typeinfo; assumption|].
      apply wp_if; intros _; [apply wp_md5; assumption|].
      apply wp_bind. unfold expect_char. apply wp_bind. unfold Lex.wp at 1. rewrite eat_char_eq by apply (i_chars _ _ Hi).
      assert (Hno : (forall r, tx s <> ch "?" :: r) -> okerr (Io UnexpectedEof)).
      { intros Hq. split; [discriminate|]. split; [|reflexivity]. intros _. destruct Hpre as [(p & Hp & Hc)|[r Hr]]; [|destruct (Hq _ Hr)].
        exists p, (tx s). split; [assumption|]. split; [assumption|]. split; [assumption|].
        intros r Hr. apply (starts_with_false _ _ r Hdot). exact Hr. }
      destruct (tx s) as [|c r] eqn:Ht.
      { apply Hno. discriminate. }
      destruct (N.eqb_spec c (ch "?")) as [->|Hne].
      2: { apply Hno. intros r' H'. injection H' as H' _. contradiction. }
      apply wp_ret. assert (A1 : adv 1 s (st_at r s)) by (eapply adv_cons; exact Ht).
      pose proof (step_adv P _ _ _ Hi A1) as H1. set (s1 := st_at r s) in *.
      assert (Hl1 : length (tx s1) < NN) by (change (tx s1) with r; cbn [length] in Hl; lia).
      run (wp_special_intrinsic P s1). intros o s2 [H2 Ho]. destruct o as [h|].
      - apply wp_ret. clearbody s1. brk. split; [|assumption]. mkstep.
      - subst s2. eapply wp_mono; [apply (wp_declarator P); [sinv|assumption]|].
        intros h s2 (H3 & Hw & _). clearbody s1. brk. split; [mkstep|assumption].
    Qed.
  End Knot.

  Lemma knot_ok fuel : parse_spec (k_parse (knot_of E fuel)) fuel /\ (forall m, type_spec (k_type (knot_of E fuel) m) fuel) /\
    (forall b, tinst_spec b (k_tinst (knot_of E fuel) b) fuel).
  Proof.
    induction fuel as [|fuel (IHp & IHt & IHi)].
    - repeat split; intros; intros ? ? ?; lia.
    - cbn [knot_of k_parse k_type k_tinst]. split; [|split].
      + intros P s Hi Hp Hl. eapply wp_do_parse; try eassumption. lia.
      + intros m P s Hi Hl. eapply wp_type; try eassumption. lia.
      + intros b P s Hi Hl. eapply wp_tinst; try eassumption. lia.
  Qed.
End Ok.
