(** The round trip: the parser reads back every text of the grammar, and builds nodes that
    denote the encoded entity.  Proof infrastructure for [Trip]. *)
From Verif Require Import Parser Utf8 Show Den Emit Grammar Lex Step Number Pend ReadAt.

Definition heads : list str := map L
  ["X"; "_"; "D"; "C"; "E"; "F"; "G"; "H"; "I"; "J"; "K"; "M"; "N"; "O"; "$$T"; "T"; "U"; "V"; "W"; "P"; "Q"; "R"; "S"; "A";
   "$$Q"; "Y"; "$$A6"; "$$A8@@"; "?"]%string.
Lemma heads_all (P : str -> Prop) p : Forall P heads -> In p heads -> P p.
Proof. intros H. apply Forall_forall. exact H. Qed.
Lemma pointer_head pt q a : pointer_code pt q a -> exists p, In p heads /\ exists r, pt = p ++ r.
Proof.
  intros []; [destruct c, v; [exists (L "S")|exists (L "Q")|exists (L "R")|exists (L "P")]|exists (L "A")|exists (L "$$Q")];
    (split; [cbn; tauto|exists []; reflexivity]).
Qed.
Lemma pointer_at (pt : str) q a : pointer_code pt q a -> length pt = 1 \/ length pt = 3.
Proof. intros []; [left|left|right]; reflexivity. Qed.

Lemma num_head t v : num_text t v -> exists c r, t = c :: r /\ (is_digit c = true \/ is_rebased c = true \/ c = ch "@").
Proof.
  intros [d Hd|l Hl].
  - exists (ch "0" + d)%N, []. split; [reflexivity|]. left. apply digit_iff. change (ch "0") with 48%N. change (ch "9") with 57%N. lia.
  - destruct l as [|c l]; [exists (ch "@"), []; auto|]. exists c, (l ++ L "@"). split; [reflexivity|]. right. left. apply rebased_iff.
    inversion Hl; assumption.
Qed.
Lemma num_len t v : num_text t v -> 1 <= length t.
Proof. intros H. destruct (num_head t v H) as (c & r & -> & _). cbn. lia. Qed.
Lemma num_no_q t v : num_text t v -> ~ In (ch "?") t.
Proof.
  intros [d Hd|l Hl] H.
  - destruct H as [H|[]]. revert H. change (ch "0") with 48%N. change (ch "?") with 63%N. lia.
  - apply in_app_or in H. destruct H as [H|[H|[]]]; [|discriminate]. rewrite Forall_forall in Hl. specialize (Hl _ H). destruct Hl as [Hl _]. revert Hl. unfold ch. cbn. lia.
Qed.

Lemma forall2_nth {A C} (R : A -> C -> Prop) l m i y : Forall2 R l m -> nth_error m i = Some y -> exists x, nth_error l i = Some x /\ R x y.
Proof. intros H. revert i. induction H; intros [|i] Hi; cbn in *; try discriminate; [injection Hi as <-; eauto|auto]. Qed.
Lemma forall2_len {A C} (R : A -> C -> Prop) l m : Forall2 R l m -> length l = length m.
Proof. induction 1; cbn; auto. Qed.

Section Round.
  Variable E : env.
  (** A bound on the number of nodes ever needed. *)
  Variable B : nat.
  Notation DT w := (dty E (cnt w) w).
  Notation DS w := (dstr E (cnt w) w).
  Notation DF w := (dfn E (cnt w) w).
  Notation dsh w := (dsh E w).

  Definition okerr (e : error) : Prop :=
    e = MaliciousInput /\ (e_nodes E < N.of_nat B)%N.

  Definition ctx (w : world) (sg : store) (f n : list handle) (G : tab) : Prop :=
    compat w sg /\ Forall2 (DT w) f (snd G) /\ Forall2 (fun h x => wget w h = Some (NNamed None x) /\ ustr x) n (fst G).
  Lemma ctx_mono w sg f n G w' sg' : ctx w sg f n G -> sub w w' -> compat w' sg' -> ctx w' sg' f n G.
  Proof.
    intros (_ & Hf & Hn) Hs Hc. split; [exact Hc|]. split.
    - eapply Forall2_mono; [|exact Hf]. intros h t. apply DT_sub. exact Hs.
    - eapply Forall2_mono; [|exact Hn]. cbv beta. intros h x [H1 H2]. split; [apply Hs; exact H1|exact H2].
  Qed.
  Lemma ctx_len w sg f n G : ctx w sg f n G -> length w = length sg.
  Proof. intros ((H & _) & _). exact H. Qed.

  (** How a parse step ends: everything is extended, at most [M] nodes exist, [rest] is left. *)
  Definition fin (w : world) (sg : store) (M : nat) (rest : str) (G : tab) {A} (R : world -> store -> A -> Prop) (a : A) (s : st) : Prop :=
    exists w' sg' f' n', s = at_ rest sg' f' n' /\ ext w w' /\ ext sg sg' /\ length sg' <= M /\ ctx w' sg' f' n' G /\ R w' sg' a.
  Lemma fin_intro w sg M rest G A (R : world -> store -> A -> Prop) a w' sg' f' n' :
    ext w w' -> ext sg sg' -> length sg' <= M -> ctx w' sg' f' n' G -> R w' sg' a ->
    fin w sg M rest G R a (at_ rest sg' f' n').
  Proof. intros. exists w', sg', f', n'. repeat split; auto; apply H2. Qed.

  Lemma wp_new_hidden (Q : handle -> st -> Prop) nd t w sg f n G : ctx w sg f n G -> length sg + 1 <= B ->
    (ctx (w ++ [None]) (sg ++ [nd]) f n G -> Q (length sg) (at_ t (sg ++ [nd]) f n)) ->
    wp okerr (intern E nd) Q (at_ t sg f n).
  Proof.
    intros Hc HB HQ. unfold wp, intern. change (s_store (at_ t sg f n)) with sg. destruct (N.ltb_spec (e_nodes E) (N.of_nat (length sg + 1))).
    - split; [reflexivity|]. lia.
    - apply HQ. eapply ctx_mono; [exact Hc|apply sub_app|]. apply compat_app; [apply Hc|apply compat_hidden].
  Qed.
  Lemma wp_new_known (Q : handle -> st -> Prop) nd t w sg f n G : ctx w sg f n G -> length sg + 1 <= B ->
    (ctx (w ++ [Some nd]) (sg ++ [nd]) f n G -> one_more w (w ++ [Some nd]) (length sg) nd -> Q (length sg) (at_ t (sg ++ [nd]) f n)) ->
    wp okerr (intern E nd) Q (at_ t sg f n).
  Proof.
    intros Hc HB HQ. unfold wp, intern. change (s_store (at_ t sg f n)) with sg. destruct (N.ltb_spec (e_nodes E) (N.of_nat (length sg + 1))).
    - split; [reflexivity|]. lia.
    - apply HQ.
      + eapply ctx_mono; [exact Hc|apply sub_app|]. apply compat_app; [apply Hc|apply compat_known].
      + rewrite <- (ctx_len _ _ _ _ _ Hc). apply app_more.
  Qed.

  (** Fresh nodes that may still change. *)
  Definition fresh (n0 : nat) (w : world) (sg : store) (h : handle) (nd : node) : Prop :=
    n0 <= h /\ hid w h /\ nth_error sg h = Some nd.
  Lemma fresh_ext n0 w sg h nd w' sg' : ext w w' -> ext sg sg' -> fresh n0 w sg h nd -> fresh n0 w' sg' h nd.
  Proof. intros Hw Hs (H1 & H2 & H3). split; [exact H1|]. split; [eapply hid_ext; eauto|eapply ext_nth; eauto]. Qed.
  Lemma fresh_le n0 n1 w sg h nd : n1 <= n0 -> fresh n0 w sg h nd -> fresh n1 w sg h nd.
  Proof. intros H (H1 & H2). split; [lia|exact H2]. Qed.
  Lemma fresh_new w sg nd : length w = length sg -> fresh (length sg) (w ++ [None]) (sg ++ [nd]) (length sg) nd.
  Proof.
    intros H. split; [lia|]. split; [unfold hid; rewrite <- H|]; rewrite nth_error_app2, Nat.sub_diag by lia; reflexivity.
  Qed.
  Lemma fresh_reveal w0 n0 w sg f n G h nd : ctx w sg f n G -> fresh n0 w sg h nd -> length w0 <= n0 -> ext w0 w ->
    ext w0 (reveal w h nd) /\ ctx (reveal w h nd) sg f n G /\ one_more w (reveal w h nd) h nd.
  Proof.
    intros Hc (H1 & H2 & H3) H0 Hx. split; [apply lset_ext; [exact Hx|lia]|]. split; [|apply reveal_more; exact H2].
    eapply ctx_mono; [exact Hc|apply reveal_sub; exact H2|]. apply reveal_compat; [apply Hc|exact H3].
  Qed.
  (** Modifying a fresh node. *)
  Lemma fresh_modify k h g w sg f n G t nd n0 sg0 (Q : unit -> st -> Prop) : ctx w sg f n G -> fresh n0 w sg h nd -> hkind k nd = true ->
    ext sg0 sg -> length sg0 <= n0 ->
    (ctx w (lset sg h (g nd)) f n G -> fresh n0 w (lset sg h (g nd)) h (g nd) -> ext sg0 (lset sg h (g nd)) ->
     (forall j, j <> h -> nth_error (lset sg h (g nd)) j = nth_error sg j) -> length (lset sg h (g nd)) = length sg ->
     Q tt (at_ t (lset sg h (g nd)) f n)) ->
    wp okerr (modify k h g) Q (at_ t sg f n).
  Proof.
    intros Hc (H1 & H2 & H3) Hk Hx H0 HQ. unfold wp, modify. change (s_store (at_ t sg f n)) with sg. unfold resolve. rewrite H3, Hk, upd_lset.
    apply HQ.
    - eapply ctx_mono; [exact Hc|apply sub_refl|]. apply compat_upd; [apply Hc|exact H2].
    - split; [exact H1|]. split; [exact H2|]. apply lset_same. apply nth_error_Some. congruence.
    - apply lset_ext; [exact Hx|lia].
    - intros j Hj. apply lset_other. auto.
    - apply lset_len.
  Qed.
  (** A modification that changes nothing. *)
  Lemma same_modify k h g sg f n t nd (Q : unit -> st -> Prop) : nth_error sg h = Some nd -> hkind k nd = true -> g nd = nd ->
    Q tt (at_ t sg f n) -> wp okerr (modify k h g) Q (at_ t sg f n).
  Proof.
    intros H3 Hk Hg HQ. unfold wp, modify. change (s_store (at_ t sg f n)) with sg. unfold resolve. rewrite H3, Hk, Hg, upd_lset, lset_id by exact H3. exact HQ.
  Qed.
  Lemma wp_resolve k h sg f n t nd (Q : node -> st -> Prop) : nth_error sg h = Some nd -> hkind k nd = true ->
    Q nd (at_ t sg f n) -> wp okerr (res_ k h) Q (at_ t sg f n).
  Proof. intros H3 Hk HQ. unfold wp, res_. change (s_store (at_ t sg f n)) with sg. unfold resolve. rewrite H3, Hk. exact HQ. Qed.
  Lemma ctx_get w sg f n G h nd : ctx w sg f n G -> wget w h = Some nd -> nth_error sg h = Some nd.
  Proof. intros ((_ & H) & _) Hg. apply H. exact Hg. Qed.

  (** ** Remembered names *)
  Lemma resolve_names_at w sg f n G t : ctx w sg f n G -> forall l m, Forall2 (fun h x => wget w h = Some (NNamed None x) /\ ustr x) l m ->
    resolve_names l (at_ t sg f n) = Ok (m, at_ t sg f n).
  Proof.
    intros Hc l m H. induction H as [|h x l m [Hh Hx] H IH]; [reflexivity|]. cbn [resolve_names].
    assert (Hr : res_ KNamed h (at_ t sg f n) = Ok (NNamed None x, at_ t sg f n)).
    { unfold res_, resolve. change (s_store (at_ t sg f n)) with sg. rewrite (ctx_get _ _ _ _ _ _ _ Hc Hh). reflexivity. }
    rewrite (bind_eq _ _ _ _ _ Hr). rewrite (bind_eq _ _ _ _ _ IH). reflexivity.
  Qed.
  Lemma memorize_at x w sg f n G t : ctx w sg f n G -> ustr x -> length sg + 1 <= B ->
    wp okerr (memorize_string E x) (fin w sg (length sg + 1) t (remember x G) (fun _ _ _ => True)) (at_ t sg f n).
  Proof.
    intros Hc Hx HB. pose proof Hc as (_ & _ & Hn). unfold memorize_string, remember.
    eapply wp_step; [apply get_at|]. change (s_names (at_ t sg f n)) with n. rewrite <- (forall2_len _ _ _ Hn).
    destruct (10 <=? length n); cbn [orb]; [apply wp_ret; eapply fin_intro; [apply ext_refl|apply ext_refl|lia|exact Hc|exact I]|].
    eapply wp_step; [eapply resolve_names_at; [exact Hc|exact Hn]|].
    destruct (existsb _ _); [apply wp_ret; eapply fin_intro; [apply ext_refl|apply ext_refl|lia|exact Hc|exact I]|].
    apply wp_bind. eapply wp_new_known; [exact Hc|exact HB|]. intros Hc' Hm. unfold wp. cbv beta.
    change (set_names _ _) with (at_ t (sg ++ [NNamed None x]) f (n ++ [length sg])).
    eapply fin_intro; [apply ext_app|apply ext_app|rewrite app_length; cbn; lia| |exact I].
    destruct Hc' as (H1 & H2 & H3). split; [exact H1|]. split; [exact H2|]. cbn [fst]. apply Forall2_app; [exact H3|].
    constructor; [|constructor]. split; [apply Hm|exact Hx].
  Qed.
  (** Rendering in the middle of parsing. *)
  Lemma render_at (g : store -> W) x sg f n t (Q : str -> st -> Prop) : fits E x ->
    emits E (g sg) [] x -> (ustr x -> Q x (at_ t sg f n)) -> wp okerr (render g) Q (at_ t sg f n).
  Proof.
    intros HT He HQ. unfold render. eapply wp_step; [apply get_at|]. change (s_store (at_ t sg f n)) with sg.
    destruct (He (mkBuf [] 0)) as [(b & Hb & (Hg1 & Hg2) & _)|(b & Hb & Hg)]; [split; [reflexivity|constructor]| |].
    - apply wp_bind. unfold wp, run_w. rewrite Hb. unfold take_text. cbn [app] in Hg1, Hg2. rewrite Hg1, from_utf8_utf8 by exact Hg2. apply HQ. exact Hg2.
    - apply wp_bind. unfold wp, run_w. rewrite Hb. exfalso. unfold fits in HT. cbn [app] in Hg. lia.
  Qed.
  Lemma output_emits w sg k h x : compat w sg -> DS w k h x -> printc E (output E sg k h) x.
  Proof.
    intros Hw Hd s Hs. unfold output. destruct (out_emits E (cnt w) (S (length sg)) w sg) as (_ & H & _); [|exact Hw|].
    { pose proof (cnt_len w). destruct Hw as [Hl _]. lia. }
    apply H; assumption.
  Qed.
  Lemma memorize_id_at h x w sg f n G t : fits E x -> ctx w sg f n G -> DS w KIdent h x -> length sg + 1 <= B ->
    wp okerr (memorize_identifier E h) (fin w sg (length sg + 1) t (remember x G) (fun _ _ _ => True)) (at_ t sg f n).
  Proof.
    intros HT Hc Hd HB. unfold memorize_identifier. apply wp_bind. apply (render_at _ x); [exact HT| |].
    - apply (output_emits w); [apply Hc|exact Hd|reflexivity].
    - intros Hx. apply memorize_at; assumption.
  Qed.

  (** ** Names *)
  Lemma string_at m x w sg f n G t : ctx w sg f n G -> ustr x -> x <> [] -> ~ In (ch "@") x -> length sg + 1 <= B ->
    wp okerr (demangle_simple_string E m) (fin w sg (length sg + 1) t (if m then remember x G else G) (fun _ _ y => y = x)) (at_ (x ++ L "@" ++ t) sg f n).
  Proof.
    intros Hc Hx Hne Hin HB. unfold demangle_simple_string. eapply wp_step; [apply text_at|].
    change (L "@" ++ t) with (ch "@" :: t). rewrite find_char_app by exact Hin. eapply wp_step; [reflexivity|].
    destruct (Nat.eqb_spec (str_bytes x) 0) as [H0|_].
    { destruct x as [|c x]; [congruence|]. rewrite str_bytes_cons in H0. pose proof (utf8_len_pos c). lia. }
    eapply wp_step; [apply bytes_at|]. eapply wp_step; [reflexivity|]. eapply wp_step; [apply expect_yes|].
    destruct m.
    - apply wp_bind. eapply wp_mono; [apply memorize_at; eassumption|]. intros _ s (w' & sg' & f' & n' & -> & H1 & H2 & H3 & H4 & _).
      apply wp_ret. eapply fin_intro; eauto.
    - eapply wp_step; [reflexivity|]. apply wp_ret. eapply fin_intro; [apply ext_refl|apply ext_refl|lia|exact Hc|reflexivity].
  Qed.
  Lemma ident_string x : ident x -> ustr x /\ x <> [] /\ ~ In (ch "@") x.
  Proof. intros (H1 & H2 & H3). destruct x; [contradiction|]. repeat split; auto. discriminate. Qed.
  Lemma name_at0 x w sg f n G t : ctx w sg f n G -> ustr x /\ x <> [] /\ ~ In (ch "@") x -> length sg + 2 <= B ->
    wp okerr (demangle_simple_name E true) (fin w sg (length sg + 2) t (remember x G)
      (fun w' sg' h => fresh (length sg) w' sg' h (NNamed None x))) (at_ (x ++ L "@" ++ t) sg f n).
  Proof.
    intros Hc (Hx & Hne & Hin) HB. unfold demangle_simple_name. apply wp_bind.
    eapply wp_mono; [apply string_at; try eassumption; lia|]. intros y s (w' & sg' & f' & n' & -> & H1 & H2 & H3 & H4 & ->).
    eapply wp_new_hidden; [exact H4|lia|]. intros Hc'. eapply fin_intro; [eapply ext_trans; [exact H1|apply ext_app]|
      eapply ext_trans; [exact H2|apply ext_app]|rewrite app_length; cbn; lia|exact Hc'|].
    eapply fresh_le; [|apply fresh_new; eapply ctx_len; exact H4]. apply ext_len. exact H2.
  Qed.
  Lemma name_at x w sg f n G t : ctx w sg f n G -> ident x -> length sg + 2 <= B ->
    wp okerr (demangle_simple_name E true) (fin w sg (length sg + 2) t (remember x G)
      (fun w' sg' h => fresh (length sg) w' sg' h (NNamed None x))) (at_ (x ++ L "@" ++ t) sg f n).
  Proof. intros Hc Hi HB. apply name_at0; auto. apply ident_string. exact Hi. Qed.
  (** Settling an identifier. *)
  Lemma fin_settle w sg M t G (nd : node) k x : length w = length sg -> hkind k nd = true ->
    forall h s, fin w sg M t G (fun w' sg' h => fresh (length sg) w' sg' h nd /\ dsh w' nd x) h s ->
    fin w sg M t G (fun w' _ h => DS w' k h x /\ wget w' h = Some nd) h s.
  Proof.
    intros Hl Hk h s (w' & sg' & f' & n' & -> & H1 & H2 & H3 & H4 & H5 & H6).
    destruct (fresh_reveal w _ _ _ _ _ _ _ _ H4 H5 ltac:(lia) H1) as (H7 & H8 & H9).
    eapply fin_intro; [exact H7|exact H2|exact H3|exact H8|]. split; [eapply more_DS; eauto|apply H9].
  Qed.
  Lemma named_dsh w x : ustr x -> dsh w (NNamed None x) x.
  Proof. intros H. split; [exact H|]. exists []. split; [reflexivity|]. rewrite app_nil_r. reflexivity. Qed.
  Lemma name_known0 x w sg f n G t : ctx w sg f n G -> ustr x /\ x <> [] /\ ~ In (ch "@") x -> length sg + 2 <= B ->
    wp okerr (demangle_simple_name E true) (fin w sg (length sg + 2) t (remember x G) (fun w' sg' h => DS w' KIdent h x)) (at_ (x ++ L "@" ++ t) sg f n).
  Proof.
    intros Hc Hi HB. eapply wp_mono; [apply name_at0; eassumption|]. intros h s Hf.
    destruct (fin_settle w sg (length sg + 2) t (remember x G) (NNamed None x) KIdent x (ctx_len _ _ _ _ _ Hc) eq_refl h s) as (w' & sg' & f' & n' & -> & H1 & H2 & H3 & H4 & H5 & _).
    - destruct Hf as (w' & sg' & f' & n' & -> & H1 & H2 & H3 & H4 & H5). eapply fin_intro; eauto. split; [exact H5|]. apply named_dsh. apply Hi.
    - eapply fin_intro; eauto.
  Qed.
  Lemma name_known x w sg f n G t : ctx w sg f n G -> ident x -> length sg + 2 <= B ->
    wp okerr (demangle_simple_name E true) (fin w sg (length sg + 2) t (remember x G) (fun w' sg' h => DS w' KIdent h x)) (at_ (x ++ L "@" ++ t) sg f n).
  Proof. intros Hc Hi HB. apply name_known0; auto. apply ident_string. exact Hi. Qed.
  Lemma digit_is i : i < 10 -> is_digit (digit_char i) = true.
  Proof. intros H. apply digit_iff. unfold digit_char. change (ch "0") with 48%N. change (ch "9") with 57%N. lia. Qed.
  Lemma digit_val i : N.to_nat (digit_char i - ch "0") = i.
  Proof. unfold digit_char. lia. Qed.
  Lemma backref_at i x w sg f n G t : i < 10 -> nth_error (fst G) i = Some x -> ctx w sg f n G ->
    wp okerr demangle_back_ref_name (fin w sg (length sg) t G (fun w' _ h => DS w' KIdent h x /\ wget w' h = Some (NNamed None x))) (at_ (digit_char i :: t) sg f n).
  Proof.
    intros Hi Hx Hc. unfold demangle_back_ref_name. eapply wp_step; [apply eatif_yes, digit_is; exact Hi|]. eapply wp_step; [reflexivity|].
    eapply wp_step; [apply get_at|]. change (s_names _) with n. rewrite digit_val. pose proof Hc as (_ & _ & Hn).
    destruct (forall2_nth _ _ _ _ _ Hn Hx) as (h & Hh & Hg & Hu). rewrite Hh. apply wp_ret. eapply fin_intro; [apply ext_refl|apply ext_refl|lia|exact Hc|].
    split; [|exact Hg]. pose proof (wget_cnt _ _ _ Hg) as Hcnt. destruct (cnt w) as [|m]; [lia|]. exists (NNamed None x). split; [exact Hg|]. split; [reflexivity|].
    split; [exact Hu|]. exists []. split; [reflexivity|]. rewrite app_nil_r. reflexivity.
  Qed.
End Round.
