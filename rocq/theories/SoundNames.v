(** Reading backwards: names.  Proof infrastructure for [Accepted]. *)
From Verif Require Import Parser Utf8 Literal LitRead Show Den Emit Grammar Lex Step Number Pend ReadAt Round RoundNames RoundTypes RoundBody RoundArgs RoundSyms RoundSpecials Trip Sound LitBack.

(** The text consists of Unicode scalar values. *)
Definition clean (T : str) : Prop := ustr T.
Lemma clean_app a b : clean (a ++ b) -> clean b.
Proof. intros H. apply Forall_app in H. apply H. Qed.
Lemma clean_cons c b : clean (c :: b) -> clean b.
Proof. apply (clean_app [c]). Qed.
Lemma clean_front a b : clean (a ++ b) -> ustr a.
Proof. intros H. apply Forall_app in H. apply H. Qed.

Lemma starts_with_inv p T : starts_with p T = true -> exists r, T = p ++ r.
Proof. unfold starts_with. destruct (strip_prefix p T) as [r|] eqn:H; [|discriminate]. intros _. exists r. apply strip_prefix_spec. exact H. Qed.
Lemma starts_with_not p T r : starts_with p T = false -> T <> p ++ r.
Proof. intros H ->. unfold starts_with in H. rewrite strip_app in H. discriminate. Qed.
Lemma not_starts (c : N) T r : starts c T = false -> T <> c :: r.
Proof. intros H ->. cbn in H. rewrite N.eqb_refl in H. discriminate. Qed.
Lemma strip_none p T r : strip_prefix p T = None -> T <> p ++ r.
Proof. intros H ->. rewrite strip_app in H. discriminate. Qed.
Lemma digit_eq c : is_digit c = true -> exists i, i < 10 /\ c = digit_char i.
Proof.
  intros H. apply digit_iff in H. exists (N.to_nat (c - ch "0")). unfold digit_char. revert H. change (ch "0") with 48%N. change (ch "9") with 57%N. lia.
Qed.

(** ** Steps whose result does not matter *)
Lemma pw_fst {A C} (m : M A) (f : A -> M C) (P : Prop) s : pw m (fun _ _ => P) s -> pw (bind m f) (fun _ _ => P) s.
Proof. intros H. apply pw_bind. eapply pw_mono; [exact H|]. intros a s' HP. apply pw_any. auto. Qed.
Lemma pw_const {A} (m : M A) (P : Prop) s : P -> pw m (fun _ _ => P) s.
Proof. intros H. apply pw_any. auto. Qed.

(** Steps that leave the text alone. *)
Definition keeps {A} (m : M A) : Prop := forall s, pw m (fun _ s' => s_ms s' = s_ms s) s.
Lemma keeps_bind {A C} (m : M A) (f : A -> M C) : keeps m -> (forall a, keeps (f a)) -> keeps (bind m f).
Proof. intros H1 H2 s. apply pw_bind. eapply pw_mono; [apply H1|]. cbv beta. intros a s' Hs. eapply pw_mono; [apply H2|]. cbv beta. intros. congruence. Qed.
Lemma keeps_ret {A} (a : A) : keeps (ret a).
Proof. intros s. reflexivity. Qed.
Lemma keeps_fail {A} e : keeps (@fail A e).
Proof. intros s. exact I. Qed.
Lemma keeps_panic {A} : keeps (@panic A).
Proof. intros s. exact I. Qed.
Lemma keeps_get : keeps get.
Proof. intros s. reflexivity. Qed.
Lemma keeps_ok_or {A} (o : option A) e : keeps (ok_or o e).
Proof. destruct o; [apply keeps_ret|apply keeps_fail]. Qed.
Lemma keeps_intern E nd : keeps (intern E nd).
Proof. intros s. unfold pw, intern. destruct (_ <? _)%N; [exact I|reflexivity]. Qed.
Lemma keeps_res k h : keeps (res_ k h).
Proof. intros s. unfold pw, res_. destruct (resolve _ _ _); [reflexivity|exact I]. Qed.
Lemma keeps_modify k h g : keeps (modify k h g).
Proof. intros s. unfold pw, modify. destruct (resolve _ _ _); [reflexivity|exact I]. Qed.
Lemma keeps_run_w v b : keeps (run_w v b).
Proof. intros s. unfold pw, run_w. destruct (v b) as [b' [[]| | |]]; try exact I. reflexivity. Qed.
Lemma keeps_render g : keeps (render g).
Proof. apply keeps_bind; [apply keeps_get|]. intros s. apply keeps_bind; [apply keeps_run_w|]. intros b. apply keeps_ok_or. Qed.
Lemma keeps_names l : keeps (resolve_names l).
Proof.
  induction l as [|h l IH]; [apply keeps_ret|]. cbn [resolve_names]. apply keeps_bind; [apply keeps_res|]. intros []; try apply keeps_panic.
  apply keeps_bind; [exact IH|]. intros; apply keeps_ret.
Qed.
Lemma keeps_memorize E x : keeps (memorize_string E x).
Proof.
  unfold memorize_string. apply keeps_bind; [apply keeps_get|]. intros s. destruct (10 <=? _); [apply keeps_ret|].
  apply keeps_bind; [apply keeps_names|]. intros l. destruct (existsb _ _); [apply keeps_ret|]. apply keeps_bind; [apply keeps_intern|].
  intros h s'. reflexivity.
Qed.
Lemma keeps_memorize_id E h : keeps (memorize_identifier E h).
Proof. apply keeps_bind; [apply keeps_render|]. intros x. apply keeps_memorize. Qed.
Lemma keeps_unqualified qn : keeps (unqualified_identifier qn).
Proof.
  unfold unqualified_identifier. apply keeps_bind; [apply keeps_res|]. intros []; try apply keeps_panic. apply keeps_bind; [apply keeps_res|]. intros []; try apply keeps_panic.
  destruct (rev _); [apply keeps_ret|]. apply keeps_bind; [apply keeps_res|]. intros i. apply keeps_ret.
Qed.
Ltac keep := repeat first [apply keeps_ret|apply keeps_fail|apply keeps_panic|apply keeps_get|apply keeps_ok_or|apply keeps_intern|apply keeps_res|apply keeps_modify|
  apply keeps_render|apply keeps_memorize|apply keeps_memorize_id|apply keeps_unqualified|apply keeps_bind|intros ?].
(** The end of the text. *)
Definition ended (s : st) : Prop := s_ms s = ms_new [].
Lemma ended_at s : ended s -> s = at_ [] (s_store s) (s_fps s) (s_names s).
Proof. destruct s; cbn. intros H. unfold ended in H. cbn in H. subst. reflexivity. Qed.
Lemma pw_ended {A} (m : M A) (Q : A -> st -> Prop) s : ended s -> keeps m -> (forall a s', ended s' -> Q a s') -> pw m Q s.
Proof. intros H K HQ. eapply pw_mono; [apply K|]. cbv beta. intros a s' Hs. apply HQ. unfold ended in *. congruence. Qed.

(** The forward direction, relation by relation. *)
Lemma fw_piece E B G t x G' : piece E G t x G' -> P_piece E B G t x G'.
Proof. destruct (read_all E B) as (H & _ & _ & _ & _ & _ & _ & _ & _ & _ & _ & _ & _ & _ & _ & _ & _ & _ & _ & _ & _ & _). apply H. Qed.
Lemma fw_chain E B G t x G' : chain E G t x G' -> P_chain E B G t x G'.
Proof. destruct (read_all E B) as (_ & H & _ & _ & _ & _ & _ & _ & _ & _ & _ & _ & _ & _ & _ & _ & _ & _ & _ & _ & _ & _). apply H. Qed.
Lemma fw_tname E B G t x G' : tname E G t x G' -> P_tname E B G t x G'.
Proof. destruct (read_all E B) as (_ & _ & H & _ & _ & _ & _ & _ & _ & _ & _ & _ & _ & _ & _ & _ & _ & _ & _ & _ & _ & _). apply H. Qed.
Lemma fw_qname E B G t x G' : qname E G t x G' -> P_qname E B G t x G'.
Proof. destruct (read_all E B) as (_ & _ & _ & H & _ & _ & _ & _ & _ & _ & _ & _ & _ & _ & _ & _ & _ & _ & _ & _ & _ & _). apply H. Qed.
Lemma fw_template E B t x : template E t x -> P_template E B t x.
Proof. destruct (read_all E B) as (_ & _ & _ & _ & H & _ & _ & _ & _ & _ & _ & _ & _ & _ & _ & _ & _ & _ & _ & _ & _ & _). apply H. Qed.
Lemma fw_tbase E B t i G' : tbase E t i G' -> P_tbase E B t i G'.
Proof. destruct (read_all E B) as (_ & _ & _ & _ & _ & H & _ & _ & _ & _ & _ & _ & _ & _ & _ & _ & _ & _ & _ & _ & _ & _). apply H. Qed.
Lemma fw_targs E B G t x G' : targs E G t x G' -> P_targs E B G t x G'.
Proof. destruct (read_all E B) as (_ & _ & _ & _ & _ & _ & H & _ & _ & _ & _ & _ & _ & _ & _ & _ & _ & _ & _ & _ & _ & _). apply H. Qed.
Lemma fw_targ E B G t x G' : targ E G t x G' -> P_targ E B G t x G'.
Proof. destruct (read_all E B) as (_ & _ & _ & _ & _ & _ & _ & H & _ & _ & _ & _ & _ & _ & _ & _ & _ & _ & _ & _ & _ & _). apply H. Qed.
Lemma fw_auto_arg E B G t x G' : auto_arg E G t x G' -> P_auto_arg E B G t x G'.
Proof. destruct (read_all E B) as (_ & _ & _ & _ & _ & _ & _ & _ & H & _ & _ & _ & _ & _ & _ & _ & _ & _ & _ & _ & _ & _). apply H. Qed.
Lemma fw_body E B G t y G' : body E G t y G' -> P_body E B G t y G'.
Proof. destruct (read_all E B) as (_ & _ & _ & _ & _ & _ & _ & _ & _ & H & _ & _ & _ & _ & _ & _ & _ & _ & _ & _ & _ & _). apply H. Qed.
Lemma fw_mtype E B m G t y G' : mtype E m G t y G' -> P_mtype E B m G t y G'.
Proof. destruct (read_all E B) as (_ & _ & _ & _ & _ & _ & _ & _ & _ & _ & H & _ & _ & _ & _ & _ & _ & _ & _ & _ & _ & _). apply H. Qed.
Lemma fw_rtype E B G t y G' : rtype E G t y G' -> P_rtype E B G t y G'.
Proof. destruct (read_all E B) as (_ & _ & _ & _ & _ & _ & _ & _ & _ & _ & _ & H & _ & _ & _ & _ & _ & _ & _ & _ & _ & _). apply H. Qed.
Lemma fw_rett E B G t y G' : rett E G t y G' -> P_rett E B G t y G'.
Proof. destruct (read_all E B) as (_ & _ & _ & _ & _ & _ & _ & _ & _ & _ & _ & _ & H & _ & _ & _ & _ & _ & _ & _ & _ & _). apply H. Qed.
Lemma fw_param E B G t y G' : param E G t y G' -> P_param E B G t y G'.
Proof. destruct (read_all E B) as (_ & _ & _ & _ & _ & _ & _ & _ & _ & _ & _ & _ & _ & H & _ & _ & _ & _ & _ & _ & _ & _). apply H. Qed.
Lemma fw_params E B G t y G' : params E G t y G' -> P_params E B G t y G'.
Proof. destruct (read_all E B) as (_ & _ & _ & _ & _ & _ & _ & _ & _ & _ & _ & _ & _ & _ & H & _ & _ & _ & _ & _ & _ & _). apply H. Qed.
Lemma fw_plist E B G t ps v G' : plist E G t ps v G' -> P_plist E B G t ps v G'.
Proof. destruct (read_all E B) as (_ & _ & _ & _ & _ & _ & _ & _ & _ & _ & _ & _ & _ & _ & _ & H & _ & _ & _ & _ & _ & _). apply H. Qed.
Lemma fw_fn E B th G t y G' : fn E th G t y G' -> P_fn E B th G t y G'.
Proof. destruct (read_all E B) as (_ & _ & _ & _ & _ & _ & _ & _ & _ & _ & _ & _ & _ & _ & _ & _ & H & _ & _ & _ & _ & _). apply H. Qed.
Lemma fw_usym E B G t i G' : usym E G t i G' -> P_usym E B G t i G' /\ forall r, ordinary (t ++ r).
Proof. destruct (read_all E B) as (_ & _ & _ & _ & _ & _ & _ & _ & _ & _ & _ & _ & _ & _ & _ & _ & _ & H & _ & _ & _ & _). apply H. Qed.
Lemma fw_dsym E B G t i G' : dsym E G t i G' -> P_usym E B G t i G'.
Proof. destruct (read_all E B) as (_ & _ & _ & _ & _ & _ & _ & _ & _ & _ & _ & _ & _ & _ & _ & _ & _ & _ & H & _ & _ & _). apply H. Qed.
Lemma fw_variable E B G t a y G' : variable E G t a y G' -> P_variable E B G t a y G'.
Proof. destruct (read_all E B) as (_ & _ & _ & _ & _ & _ & _ & _ & _ & _ & _ & _ & _ & _ & _ & _ & _ & _ & _ & H & _ & _). apply H. Qed.
Lemma fw_function E B G t k a s G' : function E G t k a s G' -> P_function E B G t k a s G'.
Proof. destruct (read_all E B) as (_ & _ & _ & _ & _ & _ & _ & _ & _ & _ & _ & _ & _ & _ & _ & _ & _ & _ & _ & _ & H & _). apply H. Qed.
Lemma fw_symbol E B G t x id G' : symbol E G t x id G' -> P_symbol E B G t x id G'.
Proof. destruct (read_all E B) as (_ & _ & _ & _ & _ & _ & _ & _ & _ & _ & _ & _ & _ & _ & _ & _ & _ & _ & _ & _ & _ & H). apply H. Qed.

Ltac lenn := repeat (rewrite ?app_length in *; cbn [length] in *); lia.

Section Sound.
  Variable E : env.
  Hypothesis Hout : (0 < e_out E)%N.
  Notation K := (knot_of E).
  Notation ctx := (ctx E).
  Notation DS w := (dstr E (cnt w) w).

  (** A beginning of the text belongs to the relation. *)
  Definition reads {Y} (T : str) (G : tab) (D : tab -> str -> Y -> tab -> Prop) : Prop :=
    exists t y G' rest, T = t ++ rest /\ D G t y G'.
  Lemma reads_intro {Y} T G (D : tab -> str -> Y -> tab -> Prop) t y G' rest : T = t ++ rest -> D G t y G' -> reads T G D.
  Proof. intros. exists t, y, G', rest. auto. Qed.
  Definition finds {A Y} (fu : nat) (m : M A) (D : tab -> str -> Y -> tab -> Prop) : Prop :=
    forall T w sg f n G, length T <= fu -> clean T -> ctx w sg f n G -> pw m (fun _ _ => reads T G D) (at_ T sg f n).

  (** What is known after a text has been read. *)
  Definition after (w : world) (sg : store) (rest : str) (G : tab) {A} (R : world -> store -> A -> Prop) (a : A) (s : st) : Prop :=
    exists w' sg' f' n', s = at_ rest sg' f' n' /\ ext w w' /\ ext sg sg' /\ ctx w' sg' f' n' G /\ R w' sg' a.
  Lemma fin_after w sg M rest G A (R : world -> store -> A -> Prop) a s : fin E w sg M rest G R a s -> after w sg rest G R a s.
  Proof. intros (w' & sg' & f' & n' & -> & H1 & H2 & _ & H3 & H4). exists w', sg', f', n'. auto 6. Qed.

  (** Once the derivation is known the forward direction tells the state. *)
  Lemma take_or {A Y} (m : nat -> M A) (D : tab -> str -> Y -> tab -> Prop) d (R : Y -> nat -> world -> store -> A -> Prop) (X : A -> st -> Prop) fu T w sg f n G (Q : A -> st -> Prop) :
    (forall t y G', D G t y G' -> forall B, rd E B d t G G' m (R y)) -> length T <= fu -> ctx w sg f n G ->
    pw (m fu) (fun a s => reads T G D \/ X a s) (at_ T sg f n) ->
    (forall t y G' rest a w' sg' f' n', T = t ++ rest -> D G t y G' -> ext w w' -> ext sg sg' -> ctx w' sg' f' n' G' -> R y (length sg) w' sg' a -> Q a (at_ rest sg' f' n')) ->
    (forall a s, m fu (at_ T sg f n) = Ok (a, s) -> X a s -> Q a s) ->
    pw (m fu) Q (at_ T sg f n).
  Proof.
    intros HF Hl Hc Hp HQ HX. unfold pw in *. destruct (m fu (at_ T sg f n)) as [[a s]| | |] eqn:Hm; try exact I.
    destruct Hp as [(t & y & G' & rest & HT & Hd)|Hx]; [|apply HX; [reflexivity|exact Hx]].
    specialize (HF t y G' Hd (length sg + 2 * length t) fu rest w sg f n). subst T. rewrite app_length in Hl.
    specialize (HF ltac:(lia) Hc (Nat.le_refl _)). unfold wp in HF. rewrite Hm in HF.
    destruct HF as (w' & sg' & f' & n' & -> & H1 & H2 & _ & H3 & H4). eapply HQ; eauto.
  Qed.
  Lemma take {A Y} (m : nat -> M A) (D : tab -> str -> Y -> tab -> Prop) d (R : Y -> nat -> world -> store -> A -> Prop) fu T w sg f n G (Q : A -> st -> Prop) :
    (forall t y G', D G t y G' -> forall B, rd E B d t G G' m (R y)) -> length T <= fu -> ctx w sg f n G ->
    pw (m fu) (fun a s => reads T G D) (at_ T sg f n) ->
    (forall t y G' rest a w' sg' f' n', T = t ++ rest -> D G t y G' -> ext w w' -> ext sg sg' -> ctx w' sg' f' n' G' -> R y (length sg) w' sg' a -> Q a (at_ rest sg' f' n')) ->
    pw (m fu) Q (at_ T sg f n).
  Proof.
    intros HF Hl Hc Hp HQ. apply (take_or m D d R (fun _ _ => False)) with (w := w) (G := G); auto; [|contradiction].
    eapply pw_mono; [exact Hp|]. cbv beta. auto.
  Qed.

  (** ** Rendering *)
  Lemma pw_render (g : store -> W) x sg f n t (Q : str -> st -> Prop) : emits E (g sg) [] x ->
    (fits E x -> ustr x -> Q x (at_ t sg f n)) -> pw (render g) Q (at_ t sg f n).
  Proof.
    intros He HQ. unfold render. eapply pw_step; [apply get_at|]. change (s_store (at_ t sg f n)) with sg. apply pw_bind. unfold pw, run_w.
    destruct (He (mkBuf [] 0)) as [(b & -> & (Hg1 & Hg2) & Hr)|(b & -> & Hg)]; [split; [reflexivity|constructor]| |exact I].
    unfold take_text. cbn [app] in Hg1, Hg2. rewrite Hg1, from_utf8_utf8 by exact Hg2. cbn [ok_or ret]. apply HQ; [|exact Hg2]. unfold fits.
    destruct Hr as [->|Hr]; [exact Hout|exact Hr].
  Qed.

  (** ** Names *)
  Lemma f_backref T w sg f n G (P : Prop) : ctx w sg f n G ->
    (forall i x r, i < 10 -> nth_error (fst G) i = Some x -> T = digit_char i :: r -> P) -> pw demangle_back_ref_name (fun _ _ => P) (at_ T sg f n).
  Proof.
    intros (_ & _ & Hn) HP. unfold demangle_back_ref_name. apply pw_bind. apply pw_eatif; [|intros _; apply pw_bind; exact I].
    intros c r -> Hd. destruct (digit_eq c Hd) as (i & Hi & ->). apply pw_bind. apply pw_ret. eapply pw_step; [apply get_at|]. change (s_names _) with n. rewrite digit_val.
    destruct (nth_error n i) as [h|] eqn:Hh; [|exact I]. apply pw_const.
    assert (He : exists x, nth_error (fst G) i = Some x).
    { destruct (nth_error (fst G) i) as [x|] eqn:Hx; [eauto|]. exfalso. apply nth_error_None in Hx. rewrite <- (forall2_len _ _ _ Hn) in Hx.
      apply nth_error_None in Hx. congruence. }
    destruct He as (x & Hx). eapply HP; [exact Hi|exact Hx|reflexivity].
  Qed.
  Lemma f_string m T sg f n (P : Prop) : clean T ->
    (forall x r, T = x ++ L "@" ++ r -> ustr x -> x <> [] -> ~ In (ch "@") x -> P) -> pw (demangle_simple_string E m) (fun _ _ => P) (at_ T sg f n).
  Proof.
    intros Hc HP. unfold demangle_simple_string. apply pw_bind. apply pw_text. apply pw_bind. apply pw_ok_or. intros pos Hp.
    apply find_char_spec in Hp. destruct Hp as (a & b & -> & <- & Hin). destruct (Nat.eqb_spec (str_bytes a) 0) as [H0|H0]; [exact I|].
    apply pw_const. apply (HP a b); [reflexivity|eapply clean_front; exact Hc| |exact Hin]. intros ->. apply H0. reflexivity.
  Qed.
  Lemma f_name m T sg f n (P : Prop) : clean T ->
    (forall x r, T = x ++ L "@" ++ r -> ustr x -> x <> [] -> ~ In (ch "@") x -> P) -> pw (demangle_simple_name E m) (fun _ _ => P) (at_ T sg f n).
  Proof. intros Hc HP. apply pw_fst. apply f_string; assumption. Qed.
  (** Names that are not templates, by their first character. *)
  Lemma name_cases x r T : T = x ++ L "@" ++ r -> ustr x -> x <> [] -> ~ In (ch "@") x -> first_is is_digit T = false -> starts_with (L "?$") T = false ->
    ident x \/ exists y, x = L "?" ++ y /\ odd_name y.
  Proof.
    intros -> Hu Hne Hin Hd Hs. destruct x as [|c y]; [congruence|]. cbn [app first_is] in Hd. destruct (N.eq_dec c (ch "?")) as [->|Hq].
    - right. exists y. split; [reflexivity|]. split; [inversion Hu; assumption|]. split; [intros H; apply Hin; right; exact H|].
      intros z ->. apply (starts_with_not _ _ (z ++ L "@" ++ r) Hs). reflexivity.
    - left. split; [exact Hu|]. split; [exact Hin|]. auto.
  Qed.

  Definition templates (G : tab) (t x : str) (G' : tab) : Prop := template E t x /\ G' = remember x G.
  Definition good_tinst fu := finds fu (k_tinst (K fu) NBB_Template) templates.
  Definition symbols (G : tab) (t : str) (p : str * str) (G' : tab) : Prop := symbol E G t (fst p) (snd p) G'.
  Definition md5_here (T : str) : Prop := exists h rest, T = md5_text h ++ rest /\ md5_key h /\ no_locator rest.
  Definition literal_here (T : str) : Prop := exists t x rest, T = t ++ rest /\ literal (e_out E) t x.
  Definition good_parse fu := forall T w sg f n G, length T <= fu -> clean T -> ctx w sg f n G ->
    pw (k_parse (K fu)) (fun _ s => reads T G symbols \/ (md5_here T \/ literal_here T \/ ended s)) (at_ T sg f n).

  Section Names.
    Variable fu : nat.
    Hypothesis IHt : good_tinst fu.
    Hypothesis IHp : good_parse fu.

    Lemma f_tname : finds fu (demangle_unqualified_type_name E (K fu) true) (tname E).
    Proof.
      intros T w sg f n G Hl Hcl Hc. unfold demangle_unqualified_type_name. apply pw_bind. apply pw_text. destruct (first_is is_digit T) eqn:Hd.
      - eapply f_backref; [exact Hc|]. intros i x r Hi Hx ->. eapply (reads_intro _ _ _ [digit_char i]); [reflexivity|]. apply tn_ref; eassumption.
      - destruct (starts_with (L "?$") T) eqn:Hs.
        + eapply pw_mono; [eapply IHt; eassumption|]. cbv beta. intros a s (t & x & G' & rest & -> & Ht & ->). eapply reads_intro; [reflexivity|]. apply tn_template. exact Ht.
        + apply f_name; [exact Hcl|]. intros x r HT Hu Hne Hin. destruct (name_cases x r T HT Hu Hne Hin Hd Hs) as [Hi|(y & -> & Ho)].
          * eapply (reads_intro _ _ _ (x ++ L "@")); [rewrite <- app_assoc; exact HT|]. apply tn_name. exact Hi.
          * eapply (reads_intro _ _ _ (L "?" ++ y ++ L "@")); [rewrite <- !app_assoc; rewrite <- app_assoc in HT; exact HT|]. apply tn_odd. exact Ho.
    Qed.

    (** The symbol in front of a known text. *)
    Lemma take_at {A} (m : nat -> M A) rest d t (R : nat -> world -> store -> A -> Prop) w sg f n G G' (Q : A -> st -> Prop) a s : 
      (forall B, rd1 E B rest d t G G' m R) -> length t <= fu -> ctx w sg f n G -> m fu (at_ (t ++ rest) sg f n) = Ok (a, s) ->
      (forall w' sg' f' n', ext w w' -> ext sg sg' -> ctx w' sg' f' n' G' -> R (length sg) w' sg' a -> Q a (at_ rest sg' f' n')) -> Q a s.
    Proof.
      intros H Hl Hc Hm HQ. specialize (H (length sg + 2 * length t) fu w sg f n Hl Hc (Nat.le_refl _)). unfold wp in H. rewrite Hm in H.
      destruct H as (w' & sg' & f' & n' & -> & H1 & H2 & _ & H3 & H4). eapply HQ; eauto.
    Qed.
    Lemma take_symbol T w sg f n G (Q : handle -> st -> Prop) : length T <= fu -> clean T -> ctx w sg f n G ->
      (forall t x id G' rest a w' sg' f' n', T = t ++ rest -> clean rest -> symbol E G t x id G' -> ext w w' -> ext sg sg' -> ctx w' sg' f' n' G' -> symR E x id w' a -> Q a (at_ rest sg' f' n')) ->
      (forall h rest a w' sg' f' n', T = md5_text h ++ rest -> clean rest -> md5_key h -> no_locator rest -> ext w w' -> ext sg sg' -> ctx w' sg' f' n' G -> symR E (md5_text h) (md5_text h) w' a -> Q a (at_ rest sg' f' n')) ->
      (forall t x rest a w' sg' f' n', T = t ++ rest -> clean rest -> literal (e_out E) t x -> ext w w' -> ext sg sg' -> ctx w' sg' f' n' G -> litR E x w' a -> Q a (at_ rest sg' f' n')) ->
      (forall a s, ended s -> Q a s) -> pw (k_parse (K fu)) Q (at_ T sg f n).
    Proof.
      intros Hl Hcl Hc HQ H5 HL HX. 
      apply (take_or (fun fu => k_parse (K fu)) symbols 0 (fun p _ w' _ h => symR E (fst p) (snd p) w' h) (fun _ s => md5_here T \/ literal_here T \/ ended s)) with (w := w) (G := G); [|exact Hl|exact Hc|exact (IHp _ w _ _ _ _ Hl Hcl Hc)| |].
      - intros t y G' Hd' B. apply (fw_symbol E B _ _ _ _ _ Hd').
      - intros t [x id] G' rest a w' sg' f' n' HT Hsy. intros. eapply HQ; eauto. subst T. eapply clean_app. exact Hcl.
      - intros a s Hm [(h & rest & -> & Hk & Hn)|[(t & x & rest & -> & Ht)|He]]; [| |apply HX; exact He].
        + refine (take_at (fun fu => k_parse (K fu)) rest 0 (md5_text h) (fun _ w' _ a => symR E (md5_text h) (md5_text h) w' a) w sg f n G G Q a s _ _ Hc Hm _); [intros B; apply (md5_open E B h rest G Hk Hn)|lenn|].
          intros w' sg' f' n' X1 S1 C1 R1. eapply H5; eauto. eapply clean_app. exact Hcl.
        + refine (take_at (fun fu => k_parse (K fu)) rest 0 t (fun _ w' _ a => litR E x w' a) w sg f n G G Q a s _ _ Hc Hm _); [intros B; apply (literal_at E B rest G t x Ht)|lenn|].
          intros w' sg' f' n' X1 S1 C1 R1. eapply HL; eauto. eapply clean_app. exact Hcl.
    Qed.
    Definition local_md5_here (T : str) : Prop := exists nt v h rest, T = (L "?" ++ nt ++ L "?" ++ md5_text h) ++ rest /\ scope_number nt v /\ md5_key h /\ no_locator rest /\
      fits E (L "`" ++ md5_text h ++ L "'::`" ++ dec_N v ++ L "'").
    Definition odd_here (T : str) : Prop := exists x rest, T = L "?" ++ x ++ L "@" ++ rest /\ odd_scope x rest /\ local_scope_pattern T = Ok false.
    Lemma odd_intro T x r : T = L "?" ++ x ++ L "@" ++ r -> odd_name x -> starts_with (L "?A") T = false -> local_scope_pattern T = Ok false -> odd_here T.
    Proof.
      intros HT Ho HA Hp. exists x, r. split; [exact HT|]. split; [|exact Hp]. split; [exact Ho|]. split; [|split].
      - intros z ->. apply (starts_with_not _ _ (z ++ L "@" ++ r) HA). exact HT.
      - intros d z Hd ->. destruct (scope_pattern [d] (d - ch "0" + 1)%N (z ++ L "@" ++ r)) as [H _].
        + destruct (digit_eq d Hd) as (i & Hi & ->). split.
          * unfold digit_char. replace (ch "0" + N.of_nat i - ch "0" + 1)%N with (N.of_nat i + 1)%N by lia. constructor. lia.
          * unfold digit_char. change (ch "0") with 48%N. change (ch "A") with 65%N. lia.
        + subst T. change (L "?" ++ [d] ++ L "?" ++ z ++ L "@" ++ r) with (L "?" ++ (d :: ch "?" :: z) ++ L "@" ++ r) in H. congruence.
      - destruct r as [|c r']; [left; intros z; discriminate|]. destruct (N.eq_dec c (ch "?")) as [->|Hq]; [|left; intros z Hz; injection Hz as Hz _; apply Hq; exact Hz].
        right. intros (v & Hv). destruct (scope_pattern _ _ r' Hv) as [H _]. subst T. rewrite <- app_assoc in H. change (L "?" ++ r') with (ch "?" :: r') in H. congruence.
    Qed.
    Lemma f_piece T w sg f n G : length T <= fu -> clean T -> ctx w sg f n G ->
      pw (demangle_name_scope_piece E (K fu)) (fun _ s => reads T G (piece E) \/ (odd_here T \/ local_md5_here T \/ ended s)) (at_ T sg f n).
    Proof.
      intros Hl Hcl Hc. unfold demangle_name_scope_piece. apply pw_bind. apply pw_text. destruct (first_is is_digit T) eqn:Hd.
      { eapply pw_mono with (Q := fun _ _ => reads T G (piece E)); [|auto]. eapply f_backref; [exact Hc|].
        intros i x r Hi Hx ->. eapply (reads_intro _ _ _ [digit_char i]); [reflexivity|]. apply pc_ref; eassumption. }
      destruct (starts_with (L "?$") T) eqn:Hs.
      { eapply pw_mono; [eapply IHt; eassumption|]. cbv beta. intros a s (t & x & G' & rest & -> & Ht & ->). left. eapply reads_intro; [reflexivity|]. apply pc_template. exact Ht. }
      destruct (starts_with (L "?A") T) eqn:HA.
      { unfold demangle_anonymous_namespace_name. apply pw_bind. apply pw_expects. intros r ->. apply pw_bind. apply pw_text. apply pw_bind. apply pw_ok_or. intros pos Hp.
        apply find_char_spec in Hp. destruct Hp as (a & b & -> & _ & Hin). apply pw_any. intros _ s. left.
        eapply (reads_intro _ _ _ (L "?A" ++ a ++ L "@") _ _ b); [rewrite <- !app_assoc; reflexivity|]. apply pc_anonymous; [|exact Hin].
        apply clean_app in Hcl. eapply clean_front. exact Hcl. }
      destruct (local_scope_ok T) as [[] Hb]; rewrite Hb.
      - destruct (scope_pattern_inv T Hb) as (nt & v & r & -> & Hn). unfold demangle_locally_scoped_name_piece.
        apply pw_bind. change (L "?" ++ nt ++ L "?" ++ r) with (ch "?" :: nt ++ ch "?" :: r) in *. eapply pw_mono with (Q := fun _ s => s = at_ (nt ++ ch "?" :: r) sg f n).
        { unfold pw. rewrite expect_yes. reflexivity. }
        cbv beta. intros _ s ->. eapply pw_step; [apply (number_at nt v false); exists nt; split; [apply Hn|reflexivity]|]. cbv iota beta.
        eapply pw_step; [apply expect_yes|]. apply pw_bind.
        assert (Hl' : length r <= fu) by (revert Hl; clear; intros; lenn). assert (Hcl' : clean r) by (apply clean_cons, clean_app, clean_cons in Hcl; exact Hcl).
        assert (Hrender : forall x h w' sg' f' n' G' rest (Q : handle -> st -> Prop), ctx w' sg' f' n' G' -> DS w' KSym h x ->
          (fits E (L "`" ++ x ++ L "'::`" ++ dec_N v ++ L "'") -> forall a s, Q a s) ->
          pw (x <- render (fun sg0 => w_str E (L "`") >> output E sg0 KSym h >> w_str E (L "'::`" ++ dec_N v ++ L "'")) ;; intern E (NNamed None x)) Q (at_ rest sg' f' n')).
        { intros x h w' sg' f' n' G' rest Q C1 R1 HQ. apply pw_bind. eapply (pw_render _ (L "`" ++ x ++ L "'::`" ++ dec_N v ++ L "'")).
          * apply emits_seq; [apply emits_put, ustr_L|]. apply emits_seq.
            -- apply (output_emits E w'); [apply C1|exact R1|reflexivity].
            -- apply emits_put. apply ustr_app; [apply ustr_L|]. apply ustr_app; [apply ustr_dec|apply ustr_L].
          * intros Hfit _. apply pw_any. apply HQ. exact Hfit. }
        eapply (take_symbol r w); [exact Hl'|exact Hcl'|exact Hc| | | |].
        + intros t x id G' rest h w' sg' f' n' -> _ Hsy X1 S1 C1 [R1 _]. eapply Hrender; [exact C1|exact R1|]. intros Hfit a s. left.
          eapply (reads_intro _ _ _ (L "?" ++ nt ++ L "?" ++ t) _ _ rest); [rewrite <- !app_assoc; reflexivity|]. eapply pc_local; eassumption.
        + intros k rest h w' sg' f' n' -> _ Hk Hno X1 S1 C1 [R1 _]. eapply Hrender; [exact C1|exact R1|]. intros Hfit a s. right. right. left.
          exists nt, v, k, rest. split; [rewrite <- !app_assoc; reflexivity|auto].
        + intros t x rest h w' sg' f' n' -> _ Ht X1 S1 C1 [R1 _]. eapply Hrender; [exact C1|exact R1|]. intros Hfit a s. left.
          eapply (reads_intro _ _ _ (L "?" ++ nt ++ L "?" ++ t) _ _ rest); [rewrite <- !app_assoc; reflexivity|]. apply pc_local_literal; [exact Hfit|exact Hn|exact Ht].
        + intros h s He. eapply pw_ended; [exact He|keep|]. auto.
      - eapply pw_mono with (Q := fun _ _ => reads T G (piece E) \/ odd_here T); [|cbv beta; tauto]. apply f_name; [exact Hcl|].
        intros x r HT Hu Hne Hin. destruct (name_cases x r T HT Hu Hne Hin Hd Hs) as [Hi|(y & -> & Ho)].
        + left. eapply (reads_intro _ _ _ (x ++ L "@")); [rewrite <- app_assoc; exact HT|]. apply pc_name. exact Hi.
        + right. eapply odd_intro; [rewrite <- app_assoc in HT; exact HT|exact Ho|exact HA|exact Hb].
    Qed.
    Lemma odd_piece_at x rest B w sg f n G : odd_scope x rest -> local_scope_pattern (L "?" ++ x ++ L "@" ++ rest) = Ok false -> ctx w sg f n G -> length sg + 2 <= B ->
      wp (okerr E B) (demangle_name_scope_piece E (K fu)) (fin E w sg (length sg + 2) rest (remember (L "?" ++ x) G) (fun w' _ h => DS w' KIdent h (L "?" ++ x)))
        (at_ (L "?" ++ x ++ L "@" ++ rest) sg f n).
    Proof.
      intros Ho Hp Hc HB. unfold demangle_name_scope_piece. eapply wp_step; [apply text_at|].
      change (first_is is_digit (L "?" ++ x ++ L "@" ++ rest)) with false. cbv iota. rewrite Hp.
      pose proof Ho as (Hn & HA & _). pose proof (odd_plain _ Hn) as Hpl. pose proof Hn as (_ & _ & HD).
      change (L "?$") with (ch "?" :: [ch "$"]). rewrite (odd_start x _ _ HD) by discriminate.
      change (L "?A") with (ch "?" :: [ch "A"]). rewrite (odd_start x _ _ HA) by discriminate.
      cbv iota. rewrite (app_assoc (L "?") x (L "@" ++ rest)). eapply name_known0; [exact Hc|exact Hpl|exact HB].
    Qed.
    Lemma f_chain loop : forall acc T w sg f n G, length T <= fu -> clean T -> ctx w sg f n G ->
      pw (scope_loop E (K fu) loop acc) (fun _ _ => reads T G (chain E)) (at_ T sg f n).
    Proof.
      induction loop as [|loop IH]; intros acc T w sg f n G Hl Hcl Hc; [exact I|]. cbn [scope_loop]. apply pw_bind. apply pw_eat.
      - intros r ->. apply pw_const. eapply (reads_intro _ _ _ (L "@")); [reflexivity|]. apply ch_end.
      - intros Ha. apply pw_bind. apply pw_text. destruct (is_empty T) eqn:He; [exact I|]. apply pw_bind.
        apply (take_or (fun fu => demangle_name_scope_piece E (K fu)) (piece E) 0 (fun x _ w' _ h => DS w' KIdent h x) (fun _ s => odd_here T \/ local_md5_here T \/ ended s)) with (w := w) (G := G); [|exact Hl|exact Hc| | |].
        + intros t x G' Hd B. apply (fw_piece E B _ _ _ _ Hd).
        + eapply f_piece; eassumption.
        + intros t x G' rest h w' sg' f' n' -> Hd X1 S1 C1 R1. eapply pw_mono; [eapply (IH (h :: acc)); [lenn|eapply clean_app; exact Hcl|exact C1]|].
          cbv beta. intros _ _ (t' & xs & G2 & rest' & -> & H2). eapply (reads_intro _ _ _ (t ++ t')); [rewrite <- app_assoc; reflexivity|]. eapply ch_cons; eassumption.
        + intros h s Hm [Hodd|[Hmd|Hend]]; [| |rewrite (ended_at s Hend); destruct loop; exact I].
          2:{ destruct Hmd as (nt & v & k & rest & -> & Hn & Hk & Hno & Hfit). set (t := L "?" ++ nt ++ L "?" ++ md5_text k) in *.
            refine (take_at (fun fu => demangle_name_scope_piece E (K fu)) rest 0 t
              (fun _ w' _ h => DS w' KIdent h (L "`" ++ md5_text k ++ L "'::`" ++ dec_N v ++ L "'")) w sg f n G G
              (fun h s => pw (scope_loop E (K fu) loop (h :: acc)) (fun _ _ => reads (t ++ rest) G (chain E)) s) h s _ _ Hc Hm _).
            - intros B. apply (local_at E B rest G nt v _ _ G Hfit Hn). eapply symbol_shown. apply md5_open; assumption.
            - lenn.
            - intros w' sg' f' n' _ _ C1 R1. eapply pw_mono; [eapply (IH (h :: acc)); [lenn|eapply clean_app; exact Hcl|exact C1]|].
              cbv beta. intros _ _ (t' & xs & G2 & rest' & -> & H2). eapply (reads_intro _ _ _ (t ++ t')); [rewrite <- app_assoc; reflexivity|].
              apply (ch_local_md5 E G nt v k t' xs G2 Hfit Hn Hk); [|exact H2]. intros z ->. apply (Hno (z ++ rest')). rewrite <- app_assoc. reflexivity. }
          destruct Hodd as (x & rest & -> & Ho & Hp). pose proof (odd_piece_at x rest (length sg + 2) w sg f n G Ho Hp Hc ltac:(lia)) as HF. unfold wp in HF. rewrite Hm in HF.
          destruct HF as (w' & sg' & f' & n' & -> & H1 & H2 & _ & H3 & H4). eapply pw_mono; [eapply (IH (h :: acc)); [lenn|do 3 eapply clean_app; exact Hcl|exact H3]|].
          cbv beta. intros _ _ (t' & xs & G2 & rest' & -> & HC). eapply (reads_intro _ _ _ (L "?" ++ x ++ L "@" ++ t')); [rewrite <- !app_assoc; reflexivity|]. apply ch_odd; [|exact HC].
          destruct Ho as (Ho1 & Ho2 & Ho3 & Ho4). split; [exact Ho1|]. split; [exact Ho2|]. split; [exact Ho3|]. destruct Ho4 as [Ho4|Ho4]; [|right; exact Ho4]. left.
          intros z ->. apply (Ho4 (z ++ rest')). reflexivity.
    Qed.
    Lemma f_chain_name id : finds fu (demangle_name_scope_chain E (K fu) id) (chain E).
    Proof. intros T w sg f n G Hl Hcl Hc. unfold demangle_name_scope_chain. apply pw_bind. apply pw_text. apply pw_fst. eapply f_chain; eassumption. Qed.
    Lemma take_tname T w sg f n G (Q : handle -> st -> Prop) : length T <= fu -> clean T -> ctx w sg f n G ->
      (forall t x G' rest a w' sg' f' n', T = t ++ rest -> clean rest -> tname E G t x G' -> ext w w' -> ext sg sg' -> ctx w' sg' f' n' G' -> DS w' KIdent a x -> Q a (at_ rest sg' f' n')) ->
      pw (demangle_unqualified_type_name E (K fu) true) Q (at_ T sg f n).
    Proof.
      intros Hl Hcl Hc HQ.
      apply (take (fun fu => demangle_unqualified_type_name E (K fu) true) (tname E) 0 (fun x _ w' _ h => DS w' KIdent h x)) with (w := w) (G := G); [|exact Hl|exact Hc|eapply f_tname; eassumption|].
      - intros t y G' Hd' B. apply (fw_tname E B _ _ _ _ Hd').
      - intros. eapply HQ; eauto. subst T. eapply clean_app. exact Hcl.
    Qed.
    Lemma f_qname : finds fu (demangle_fully_qualified_type_name E (K fu)) (qname E).
    Proof.
      intros T w sg f n G Hl Hcl Hc. unfold demangle_fully_qualified_type_name. apply pw_bind. eapply take_tname; [exact Hl|exact Hcl|exact Hc|].
      intros t x G' rest a w' sg' f' n' -> Hcl' Ht _ _ C1 _. eapply pw_mono; [eapply f_chain_name; [lenn|exact Hcl'|exact C1]|].
      cbv beta. intros _ _ (t' & xs & G2 & rest' & -> & H2). eapply (reads_intro _ _ _ (t ++ t')); [rewrite <- app_assoc; reflexivity|]. eapply qn_intro; eassumption.
    Qed.
    Lemma take_qname T w sg f n G (Q : handle -> st -> Prop) : length T <= fu -> clean T -> ctx w sg f n G ->
      (forall t xs G' rest a w' sg' f' n', T = t ++ rest -> clean rest -> qname E G t xs G' -> ext w w' -> ext sg sg' -> ctx w' sg' f' n' G' -> DS w' KQual a (qualified xs) -> Q a (at_ rest sg' f' n')) ->
      pw (demangle_fully_qualified_type_name E (K fu)) Q (at_ T sg f n).
    Proof.
      intros Hl Hcl Hc HQ.
      apply (take (fun fu => demangle_fully_qualified_type_name E (K fu)) (qname E) 0 (fun x _ w' _ h => DS w' KQual h (qualified x))) with (w := w) (G := G); [|exact Hl|exact Hc|eapply f_qname; eassumption|].
      - intros t y G' Hd' B. apply (fw_qname E B _ _ _ _ Hd').
      - intros. eapply HQ; eauto. subst T. eapply clean_app. exact Hcl.
    Qed.
    Lemma take_chain id T w sg f n G (Q : handle -> st -> Prop) : length T <= fu -> clean T -> ctx w sg f n G ->
      (forall t xs G' rest a w' sg' f' n', T = t ++ rest -> clean rest -> chain E G t xs G' -> ext w w' -> ext sg sg' -> ctx w' sg' f' n' G' -> chainR E id xs (length sg) w' sg' a -> Q a (at_ rest sg' f' n')) ->
      pw (demangle_name_scope_chain E (K fu) id) Q (at_ T sg f n).
    Proof.
      intros Hl Hcl Hc HQ.
      apply (take (fun fu => demangle_name_scope_chain E (K fu) id) (chain E) 0 (chainR E id)) with (w := w) (G := G); [|exact Hl|exact Hc|eapply f_chain_name; eassumption|].
      - intros t y G' Hd' B. apply (chain_at E B id _ _ _ _ (fw_chain E B _ _ _ _ Hd')).
      - intros. eapply HQ; eauto. subst T. eapply clean_app. exact Hcl.
    Qed.
  End Names.
End Sound.
