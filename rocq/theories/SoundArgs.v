(** Reading backwards: template arguments and instantiations.  Proof infrastructure for [Accepted]. *)
From Verif Require Import Parser Utf8 Show Den Emit Grammar Lex Step Number Pend ReadAt Round RoundNames RoundTypes RoundBody RoundArgs RoundSyms RoundSpecials Trip Sound SoundNames SoundTypes.

(** ** Identifier codes *)
Definition alnum : str := L "0123456789ABCDEFGHIJKLMNOPQRSTUVWXYZ".
Lemma alnum_in c : is_digit c || is_upper c = true -> In c alnum.
Proof.
  intros H. apply orb_true_iff in H. destruct H as [H|H].
  - destruct (digit_eq c H) as (i & Hi & ->). do 10 (destruct i as [|i]; [cbn; tauto|]). lia.
  - assert (Hc : exists i, i < 26 /\ c = (ch "A" + N.of_nat i)%N).
    { unfold is_upper, in_range in H. apply andb_true_iff in H. destruct H as [H1 H2]. apply N.leb_le in H1, H2. exists (N.to_nat (c - ch "A")).
      revert H1 H2. change (ch "A") with 65%N. change (ch "Z") with 90%N. lia. }
    destruct Hc as (i & Hi & ->). clear H. do 26 (destruct i as [|i]; [cbn; tauto|]). lia.
Qed.
Lemma str_eqb_eq x : forall y, str_eqb x y = true -> x = y.
Proof.
  induction x as [|a x IH]; destruct y as [|b y]; cbn; try discriminate; [reflexivity|]. intros H. apply andb_true_iff in H. destruct H as [H1 H2].
  apply N.eqb_eq in H1. rewrite (IH _ H2). congruence.
Qed.
Definition group_prefix (g : code_group) : str := match g with Basic => [] | Under => L "_" | DoubleUnder => L "__" end.
Definition coded (g : code_group) (c : N) : bool :=
  existsb (fun p => str_eqb (group_prefix g ++ [c]) (fst p)) operators || existsb (str_eqb (group_prefix g ++ [c])) unnamed_codes.
Lemma coded_inv g c : coded g c = true -> (exists x, In (group_prefix g ++ [c], x) operators) \/ In (group_prefix g ++ [c]) unnamed_codes.
Proof.
  unfold coded. intros H. apply orb_true_iff in H. destruct H as [H|H]; apply existsb_exists in H; destruct H as (p & Hp & He); apply str_eqb_eq in He.
  - left. destruct p as [k x]. cbn [fst] in He. subst k. eauto.
  - right. subst p. exact Hp.
Qed.
Lemma group_coded g c : In c alnum -> (match g with Basic => ~ In c (L "01B") | Under => True | DoubleUnder => c <> ch "K" end) -> coded g c = true.
Proof.
  intros Hc Hx. assert (H : forallb (fun c => coded g c || match g with Basic => existsb (N.eqb c) (L "01B") | Under => false | DoubleUnder => (c =? ch "K")%N end) alnum = true)
    by (destruct g; vm_compute; reflexivity).
  rewrite forallb_forall in H. specialize (H c Hc). apply orb_true_iff in H. destruct H as [H|H]; [exact H|]. exfalso. destruct g.
  - apply existsb_exists in H. destruct H as (d & Hd & He). apply N.eqb_eq in He. subst d. auto.
  - discriminate.
  - apply N.eqb_eq in H. auto.
Qed.

Section Args.
  Variable E : env.
  Hypothesis Hout : (0 < e_out E)%N.
  Notation K := (knot_of E).
  Notation ctx := (ctx E).
  Notation DS w := (dstr E (cnt w) w).
  Notation DT w := (dty E (cnt w) w).
  Notation finds := (finds E).

  Lemma f_code T sg f n (P : Prop) : clean T -> (forall t i r, (forall G, ubase G t i G) -> T = t ++ r -> P) ->
    (forall c r, In c unnamed_codes -> T = L "?" ++ c ++ r -> P) -> pw (demangle_function_identifier_code E) (fun _ _ => P) (at_ T sg f n).
  Proof.
    intros Hcl H1 H2. unfold demangle_function_identifier_code. apply pw_bind. apply pw_expect. intros T1 ->.
    assert (Hgo : forall g c r, T1 = group_prefix g ++ c :: r -> (match g with Basic => ~ In c (L "01B") | Under => True | DoubleUnder => c <> ch "K" end) ->
      forall s, pw (op <- translate_intrinsic c g ;; intern E (NIntrinsic None op)) (fun _ _ => P) s).
    { intros g c r -> Hx s. apply pw_fst. unfold translate_intrinsic. destruct (is_digit c || is_upper c) eqn:Ha; [|exact I]. apply pw_const.
      pose proof (group_coded g c (alnum_in c Ha) Hx) as Hc. apply coded_inv in Hc. destruct Hc as [(x & Hi)|Hi].
      - apply (H1 (L "?" ++ group_prefix g ++ [c]) (IText x) r); [intros G; apply ub_operator; exact Hi|rewrite <- !app_assoc; reflexivity].
      - apply (H2 (group_prefix g ++ [c]) r Hi). rewrite <- !app_assoc. reflexivity. }
    apply pw_bind. apply pw_eats.
    - intros T2 ->. unfold demangle_function_identifier_code_group. apply pw_bind. apply pw_next. intros c r ->. cbv zeta.
      destruct (N.eqb_spec c (ch "K")) as [->|Hk]; [|eapply (Hgo DoubleUnder); [reflexivity|exact Hk]].
      apply pw_fst. apply f_string.
      { apply clean_cons, clean_app, clean_cons in Hcl. exact Hcl. }
      intros x r' -> Hu Hne Hin. apply (H1 (L "?__K" ++ x ++ L "@") (IText (L "operator """"" ++ x)) r'); [intros G; apply ub_literal; assumption|rewrite <- !app_assoc; reflexivity].
    - intros _. apply pw_bind. apply pw_eat.
      + intros T2 ->. unfold demangle_function_identifier_code_group. apply pw_bind. apply pw_next. intros c r ->. cbv zeta. eapply (Hgo Under); [reflexivity|exact I].
      + intros _. unfold demangle_function_identifier_code_group. apply pw_bind. apply pw_next. intros c r ->. cbv zeta.
        destruct (one_of (L "01") c) eqn:H01.
        { apply pw_const. change ((c =? ch "0")%N || ((c =? ch "1")%N || false) = true) in H01. destruct (N.eqb_spec c (ch "0")) as [->|_].
          - apply (H1 (L "?0") (IStructor false []) r); [intros G; apply ub_ctor|reflexivity].
          - destruct (N.eqb_spec c (ch "1")) as [->|_]; [|discriminate H01]. apply (H1 (L "?1") (IStructor true []) r); [intros G; apply ub_dtor|reflexivity]. }
        destruct (N.eqb_spec c (ch "B")) as [->|HB].
        { apply pw_const. apply (H1 (L "?B") (IConv []) r); [intros G; apply ub_conv|reflexivity]. }
        eapply (Hgo Basic); [reflexivity|]. intros [Hx|[Hx|[Hx|[]]]]; subst c; [discriminate H01|discriminate H01|apply HB; reflexivity].
  Qed.

  Definition raws (G : tab) (t : str) (p : idk * list str) (G' : tab) : Prop :=
    G' = G /\ exists b G1 a G2, t = L "?$" ++ b ++ a /\ tbase E b (fst p) G1 /\ targs E G1 a (snd p) G2.
  Definition good_raw fu := finds fu (k_tinst (K fu) NBB_Simple) raws.
  Lemma dsym_tbase t i G' : dsym E empty_tab t i G' -> exists i', tbase E t i' G'.
  Proof.
    intros H. inversion H; subst; [|eexists; apply tb_unnamed; assumption].
    match goal with H : usym _ _ _ _ _ |- _ => inversion H; subst end.
    - match goal with H : nth_error (fst _) ?j = Some _ |- _ => destruct j; discriminate H end.
    - eexists. apply tb_base. eassumption.
    - eexists. apply tb_unnamed. apply free_unnamed. assumption.
    - eexists. eapply tb_again; eassumption.
  Qed.

  Section At.
    Variable fu : nat.
    Hypothesis IHt : good_tinst E fu.
    Hypothesis IHp : good_parse E fu.
    Hypothesis IHy : good_type E fu.
    Hypothesis IHr : good_raw fu.

    Lemma f_usn : finds fu (demangle_unqualified_symbol_name E (K fu) NBB_Simple) (dsym E).
    Proof.
      intros T w sg f n G Hl Hcl Hc. unfold demangle_unqualified_symbol_name. apply pw_bind. apply pw_text. destruct (first_is is_digit T) eqn:Hd.
      { eapply f_backref; [exact Hc|]. intros i x r Hi Hx ->. eapply (reads_intro _ _ _ [digit_char i]); [reflexivity|]. apply ds_usym. apply us_ref; eassumption. }
      destruct (starts_with (L "?$") T) eqn:Hs.
      { eapply pw_mono; [eapply IHr; eassumption|]. cbv beta. intros _ _ (t & [i xs] & G' & rest & -> & -> & b & G1 & a & G2 & -> & Hb & Ha). cbn [fst snd] in *.
        eapply reads_intro; [reflexivity|]. apply ds_usym. eapply us_template; eassumption. }
      destruct (starts_with (L "?") T) eqn:Hq.
      - apply f_code; [exact Hcl| |].
        + intros t i r Hu ->. eapply reads_intro; [reflexivity|]. apply ds_usym. apply us_base. apply Hu.
        + intros c r Hi ->. eapply (reads_intro _ _ _ (L "?" ++ c)); [rewrite <- app_assoc; reflexivity|]. apply ds_unnamed. exact Hi.
      - apply f_name; [exact Hcl|]. intros x r HT Hu Hne Hin. destruct (name_cases x r T HT Hu Hne Hin Hd Hs) as [Hi|(y & -> & Ho)].
        + eapply (reads_intro _ _ _ (x ++ L "@")); [rewrite <- app_assoc; exact HT|]. apply ds_usym. apply us_base. apply ub_name. exact Hi.
        + exfalso. eapply starts_with_not; [exact Hq|]. rewrite HT. rewrite <- app_assoc. reflexivity.
    Qed.
    Definition tbases (G : tab) (t : str) (i : idk) (G' : tab) : Prop := G = empty_tab /\ tbase E t i G'.
    Lemma take_tbase T w sg f n (Q : handle -> st -> Prop) : length T <= fu -> clean T -> ctx w sg f n empty_tab ->
      (forall t i G' rest a w' sg' f' n', T = t ++ rest -> clean rest -> length rest <= fu -> tbase E t i G' -> ext w w' -> ext sg sg' -> ctx w' sg' f' n' G' -> tbaseR i (length sg) w' sg' a -> Q a (at_ rest sg' f' n')) ->
      pw (demangle_unqualified_symbol_name E (K fu) NBB_Simple) Q (at_ T sg f n).
    Proof.
      intros Hl Hcl Hc HQ. apply (take E Hout (fun fu => demangle_unqualified_symbol_name E (K fu) NBB_Simple) tbases 0 tbaseR) with (w := w) (G := empty_tab); [|exact Hl|exact Hc| |].
      - intros t i G' [_ Hb] B. apply (fw_tbase E B _ _ _ Hb).
      - eapply pw_mono; [eapply f_usn; eassumption|]. cbv beta. intros _ _ (t & i & G' & rest & -> & Hd). destruct (dsym_tbase _ _ _ Hd) as (i' & Hb).
        eapply reads_intro; [reflexivity|]. split; [reflexivity|exact Hb].
      - intros t i G' rest a w' sg' f' n' HT [_ Hb] X1 S1 C1 R1. eapply HQ; eauto; subst T; [eapply clean_app; exact Hcl|lenn].
    Qed.

    (** ** Template arguments *)
    Definition kept (rest : str) (s : st) : Prop := s_ms s = ms_new rest.
    Lemma kept_at rest s : kept rest s -> s = at_ rest (s_store s) (s_fps s) (s_names s).
    Proof. destruct s; cbn. intros H. unfold kept in H. cbn in H. subst. reflexivity. Qed.
    Lemma f_tsym T w sg f n G (Q : option handle -> st -> Prop) : length T <= fu -> clean T -> ctx w sg f n G ->
      (forall t x id G' rest h s', T = t ++ rest -> symbol E G t x id G' -> fits E id -> kept rest s' -> Q (Some h) s') ->
      (forall k rest h s', T = md5_text k ++ rest -> md5_key k -> no_locator rest -> fits E (md5_text k) -> kept rest s' -> Q (Some h) s') ->
      (starts_with (L "?") T = false -> Q None (at_ T sg f n)) -> (forall o s', ended s' -> Q o s') -> pw (template_symbol E (K fu)) Q (at_ T sg f n).
    Proof.
      intros Hl Hcl Hc H1 H5 H2 H3. unfold template_symbol. apply pw_bind. apply pw_text. destruct (starts_with (L "?") T) eqn:Hs; [|apply pw_ret, H2; reflexivity].
      apply pw_bind.
      assert (Hgo : forall x id G' rest h w' sg' f' n' (Q' : option handle -> st -> Prop), ctx w' sg' f' n' G' -> symR E x id w' h ->
        (forall s', fits E id -> kept rest s' -> Q' (Some h) s') ->
        pw (nd <- res_ KSym h ;; match sym_name nd with
            | None => fail InvalidTemplateParameterList
            | Some qn => o <- unqualified_identifier qn ;; i <- ok_or o InvalidTemplateParameterList ;; memorize_identifier E i ;;; ret (Some h) end) Q' (at_ rest sg' f' n')).
      { intros x id G' rest h w' sg' f' n' Q' C1 (R1 & nd & qn & c & hs & uid & A1 & A2 & A3 & A4 & A5 & A6) HQ'.
        apply pw_bind. apply (pw_wp (okerr E 0)). eapply wp_resolve; [eapply ctx_get; [exact C1|exact A1]|exact A2|]. rewrite A3.
        unfold unqualified_identifier. apply pw_bind. apply pw_bind. apply (pw_wp (okerr E 0)). eapply wp_resolve; [eapply ctx_get; [exact C1|exact A4]|reflexivity|].
        apply pw_bind. apply (pw_wp (okerr E 0)). eapply wp_resolve; [eapply ctx_get; [exact C1|exact A5]|reflexivity|].
        destruct (DS_get _ _ _ _ _ A6) as (idn & B1 & B2). rewrite rev_app_distr. cbn [rev app].
        apply pw_bind. apply (pw_wp (okerr E 0)). eapply wp_resolve; [eapply ctx_get; [exact C1|exact B1]|reflexivity|].
        unfold hkind in B2. rewrite B2. apply pw_ret. eapply pw_step; [reflexivity|]. apply pw_bind. unfold memorize_identifier. apply pw_bind.
        eapply (pw_render E Hout _ id); [apply (output_emits E w'); [apply C1|exact A6|reflexivity]|]. intros Hfit _.
        eapply pw_mono; [apply keeps_memorize|]. cbv beta. intros _ s Hks. apply pw_ret. apply HQ'; assumption. }
      eapply (take_symbol E Hout fu IHp); [exact Hl|exact Hcl|exact Hc| | | |].
      - intros t x id G' rest h w' sg' f' n' HT Hcl' Hsy _ _ C1 R1. eapply (Hgo x id G' rest h); [exact C1|exact R1|]. intros s Hf Hk. eapply H1; eassumption.
      - intros k rest h w' sg' f' n' HT Hcl' Hk Hno _ _ C1 R1. eapply (Hgo _ _ _ rest h); [exact C1|exact R1|]. intros s Hf Hks. eapply H5; eassumption.
      - intros t x rest h w' sg' f' n' HT Hcl' Ht _ _ C1 (_ & nd & A1 & A2 & A3). apply pw_bind. apply (pw_wp (okerr E 0)).
        eapply wp_resolve; [eapply ctx_get; [exact C1|exact A1]|exact A2|]. rewrite A3. exact I.
      - intros a s He. eapply pw_ended; [exact He| |exact H3]. apply keeps_bind; [apply keeps_res|]. intros nd. destruct (sym_name nd); [keep|apply keeps_fail].
    Qed.

    (** What follows an argument that is only ["$1"]. *)
    Definition nothing (T : str) (G : tab) (s : st) : Prop := exists pre rest w' sg' f' n' G', T = pre ++ rest /\ pre <> [] /\ s = at_ rest sg' f' n' /\ ctx w' sg' f' n' G' /\
      starts_with (L "?") rest = false /\ forall t' xs G2, first_is_not "?"%char t' -> targs E G' t' xs G2 -> exists xs', targs E G (pre ++ t') xs' G2.
    (** Arguments, after [auto] a type. *)
    Definition argp (auto : bool) (G : tab) (t x : str) (G' : tab) : Prop :=
      if auto then forall G0 tt y, body E G0 tt y G -> targ E G0 (L "$M" ++ tt ++ t) x G' else targ E G t x G'.
    Definition nothingp (auto : bool) (T : str) (G : tab) (s : st) : Prop := exists pre rest w' sg' f' n', T = pre ++ rest /\ pre <> [] /\ s = at_ rest sg' f' n' /\ ctx w' sg' f' n' G /\
      starts_with (L "?") rest = false /\ forall t' xs G2, first_is_not "?"%char t' -> targs E G t' xs G2 ->
        if auto then forall G0 tt y, body E G0 tt y G -> targs E G0 (L "$M" ++ tt ++ pre ++ t') (L "&" :: xs) G2 else targs E G (pre ++ t') (L "&" :: xs) G2.
    (** Arguments naming a symbol by its hash: what follows must not be the locator suffix. *)
    Definition open_rest (auto : bool) (T : str) (G : tab) : Prop := exists pre rest y G', T = pre ++ rest /\ pre <> [] /\ (auto = false -> forall r, strip_prefix (L "$M") (pre ++ r) = None) /\
      (forall B, rd1 E B rest 0 pre G G' (fun fu => arg_rest E (K fu) auto) (fun _ w' _ h => DS w' KAny h y)) /\
      forall t' r' xs G2, rest = t' ++ r' -> targs E G' t' xs G2 ->
        if auto then forall G0 tt y0, body E G0 tt y0 G -> exists xs', targs E G0 (L "$M" ++ tt ++ pre ++ t') xs' G2 else exists xs', targs E G (pre ++ t') xs' G2.
    Definition open_arg (T : str) (G : tab) : Prop := exists pre rest y G', T = pre ++ rest /\ pre <> [] /\
      (forall B, rd1 E B rest 0 pre G G' (fun fu => template_arg E (K fu)) (fun _ w' _ h => DS w' KAny h y)) /\
      forall t' r' xs G2, rest = t' ++ r' -> targs E G' t' xs G2 -> exists xs', targs E G (pre ++ t') xs' G2.
    Lemma no_locator_front t r : no_locator (t ++ r) -> no_locator t.
    Proof. intros H u ->. apply (H (u ++ r)). rewrite <- app_assoc. reflexivity. Qed.
    Lemma open_pointer auto k rest G : md5_key k -> no_locator rest -> fits E (md5_text k) -> open_rest auto (marker auto (L "1") ++ md5_text k ++ rest) G.
    Proof.
      intros Hk Hno Hf. exists (marker auto (L "1") ++ md5_text k), rest, (L "&" ++ md5_text k), (remember (md5_text k) G).
      split; [apply app_assoc|]. split; [destruct auto; discriminate|]. split; [intros ->; reflexivity|]. split.
      - intros B. pose proof (arg_symbol E B auto (L "1") 0 rest G (md5_text k) (md5_text k) (md5_text k) G [] []) as X. rewrite app_nil_r in X.
        apply X; [left; reflexivity|exact Hf|reflexivity|constructor|]. apply md5_open; assumption.
      - intros t' r' xs G2 -> Ht. pose proof (no_locator_front _ _ Hno) as Hn. destruct auto.
        + intros G0 tt y0 Hb. eexists. rewrite <- app_assoc. exact (ta_auto_md5 E G0 tt y0 G k t' xs G2 Hf Hb Hk Hn Ht).
        + eexists. rewrite <- app_assoc. exact (ta_md5 E G k t' xs G2 Hf Hk Hn Ht).
    Qed.
    Lemma open_reference auto k rest G : md5_key k -> no_locator rest -> open_rest auto (L "$E" ++ md5_text k ++ rest) G.
    Proof.
      intros Hk Hno. exists (L "$E" ++ md5_text k), rest, (md5_text k), G.
      split; [apply app_assoc|]. split; [discriminate|]. split; [intros ->; reflexivity|]. split.
      - intros B. apply arg_shown. eapply symbol_shown. apply md5_open; assumption.
      - intros t' r' xs G2 -> Ht. pose proof (no_locator_front _ _ Hno) as Hn. destruct auto.
        + intros G0 tt y0 Hb. eexists. rewrite <- app_assoc. exact (ta_auto_reference_md5 E G0 tt y0 G k t' xs G2 Hb Hk Hn Ht).
        + eexists. rewrite <- app_assoc. exact (ta_reference_md5 E G k t' xs G2 Hk Hn Ht).
    Qed.
    Lemma open_auto tt y G G1 T : body E G tt y G1 -> open_rest true T G1 -> open_arg (L "$M" ++ tt ++ T) G.
    Proof.
      intros Hb (pre & rest & x & G' & -> & Hne & _ & Hr & Ht). exists (L "$M" ++ tt ++ pre), rest, x, G'. split; [rewrite <- !app_assoc; reflexivity|]. split; [discriminate|]. split.
      - intros B. eapply arg_auto; [apply (fw_body E B _ _ _ _ Hb)|apply Hr].
      - intros t' r' xs G2 HT H. rewrite <- !app_assoc. eapply Ht; eassumption.
    Qed.
    Lemma open_plain T G : open_rest false T G -> open_arg T G.
    Proof.
      intros (pre & rest & x & G' & -> & Hne & Hm & Hr & Ht). exists pre, rest, x, G'. split; [reflexivity|]. split; [exact Hne|]. split; [|exact Ht].
      intros B. apply arg_plain; [apply Hm; reflexivity|apply Hr].
    Qed.
    Lemma argp_member_md5 auto c cnt G k t1 zs : fits E (md5_text k) -> md5_key k -> In (c, cnt) member_codes -> length zs = cnt -> offsets t1 zs ->
      exists x', argp auto G (marker auto c ++ md5_text k ++ t1) x' (remember (md5_text k) G).
    Proof.
      intros Hf Hk Hi Hz Ho. destruct auto; eexists.
      - intros G0 tt y Hb. eapply tg_auto; [exact Hb|]. eapply aa_member_md5; eassumption.
      - cbn [marker]. rewrite <- app_assoc. eapply tg_member_md5; eassumption.
    Qed.
    Lemma offs_inv t zs : offsets t zs -> match zs with [] => t = [] | z :: zs => exists t1 t2, t = t1 ++ t2 /\ signed_number t1 z /\ offsets t2 zs end.
    Proof. destruct 1; [reflexivity|]. eauto. Qed.
    Lemma argp_member auto c cnt G t x id G' t1 zs : fits E id -> In (c, cnt) ((L "1", 0) :: member_codes) -> symbol E G t x id G' -> length zs = cnt -> offsets t1 zs ->
      exists x', argp auto G (marker auto c ++ t ++ t1) x' (remember id G').
    Proof.
      intros Hf Hi Hs Hz Ho. destruct Hi as [Hi|Hi].
      - injection Hi as <- <-. destruct zs; [|discriminate]. apply offs_inv in Ho. subst t1. rewrite app_nil_r. destruct auto; eexists.
        + intros G0 tt y Hb. eapply (tg_auto_pointer E G0 tt y G t); eassumption.
        + eapply tg_pointer; eassumption.
      - destruct auto.
        + eexists. intros G0 tt y Hb. eapply tg_auto; [exact Hb|]. eapply aa_member; eassumption.
        + cbn in Hi. destruct Hi as [Hi|[Hi|[Hi|[]]]]; injection Hi as <- <-.
          * destruct zs as [|z1 [|? ?]]; try discriminate. apply offs_inv in Ho. destruct Ho as (s1 & s2 & -> & H1 & Ho). apply offs_inv in Ho. subst s2. rewrite app_nil_r.
            eexists. eapply (tg_member1 E G t); eassumption.
          * destruct zs as [|z1 [|z2 [|? ?]]]; try discriminate. apply offs_inv in Ho. destruct Ho as (s1 & s2 & -> & H1 & Ho). apply offs_inv in Ho.
            destruct Ho as (s3 & s4 & -> & H2 & Ho). apply offs_inv in Ho. subst s4. rewrite app_nil_r. eexists. eapply (tg_member2 E G t); eassumption.
          * destruct zs as [|z1 [|z2 [|z3 [|? ?]]]]; try discriminate. apply offs_inv in Ho. destruct Ho as (s1 & s2 & -> & H1 & Ho). apply offs_inv in Ho.
            destruct Ho as (s3 & s4 & -> & H2 & Ho). apply offs_inv in Ho. destruct Ho as (s5 & s6 & -> & H3 & Ho). apply offs_inv in Ho. subst s6. rewrite app_nil_r.
            eexists. eapply (tg_member3 E G t); eassumption.
    Qed.
    Lemma argp_bare auto c cnt G t zs : In (c, cnt) member_codes -> length zs = cnt -> offsets t zs -> first_is_not "?"%char t -> exists x', argp auto G (marker auto c ++ t) x' G.
    Proof.
      intros Hi Hz Ho Hq. destruct auto; eexists.
      - intros G0 tt y Hb. eapply tg_auto; [exact Hb|]. eapply aa_bare_member; eassumption.
      - cbn [marker]. rewrite <- app_assoc. eapply tg_bare_member; eassumption.
    Qed.
    Lemma argp_data auto c cnt G t zs : In (c, cnt) data_codes -> length zs = cnt -> offsets t zs -> exists x', argp auto G (marker auto c ++ t) x' G.
    Proof.
      intros Hi Hz Ho. destruct auto.
      - eexists. intros G0 tt y Hb. eapply tg_auto; [exact Hb|]. eapply aa_data; eassumption.
      - cbn in Hi. destruct Hi as [Hi|[Hi|[]]]; injection Hi as <- <-.
        + destruct zs as [|z1 [|z2 [|? ?]]]; try discriminate. apply offs_inv in Ho. destruct Ho as (s1 & s2 & -> & H1 & Ho). apply offs_inv in Ho.
          destruct Ho as (s3 & s4 & -> & H2 & Ho). apply offs_inv in Ho. subst s4. rewrite app_nil_r. eexists. eapply (tg_data2 E G); eassumption.
        + destruct zs as [|z1 [|z2 [|z3 [|? ?]]]]; try discriminate. apply offs_inv in Ho. destruct Ho as (s1 & s2 & -> & H1 & Ho). apply offs_inv in Ho.
          destruct Ho as (s3 & s4 & -> & H2 & Ho). apply offs_inv in Ho. destruct Ho as (s5 & s6 & -> & H3 & Ho). apply offs_inv in Ho. subst s6. rewrite app_nil_r.
          eexists. eapply (tg_data3 E G); eassumption.
    Qed.
    Lemma member_marks (auto : bool) p : In p (if auto then [L "1"; L "H"; L "I"; L "J"] else [L "$1"; L "$H"; L "$I"; L "$J"]) ->
      exists c cnt, p = marker auto c /\ inheritance_count p = Some cnt /\ In (c, cnt) ((L "1", 0) :: member_codes).
    Proof.
      destruct auto; (intros [<-|[<-|[<-|[<-|[]]]]]; [exists (L "1"), 0|exists (L "H"), 1|exists (L "I"), 2|exists (L "J"), 3]); cbn; auto 8.
    Qed.
    Lemma data_marks (auto : bool) p : In p (if auto then [L "F"; L "G"] else [L "$F"; L "$G"]) ->
      exists c cnt, p = marker auto c /\ data_member_count p = Some cnt /\ In (c, cnt) data_codes.
    Proof.
      destruct auto; (intros [<-|[<-|[]]]; [exists (L "F"), 2|exists (L "G"), 3]); cbn; auto 8.
    Qed.
    Lemma q_first t r : starts_with (L "?") (t ++ r) = false -> first_is_not "?"%char t.
    Proof. intros H z ->. eapply starts_with_not; [exact H|]. reflexivity. Qed.
    Lemma marker_ne auto c cnt : In (c, cnt) ((L "1", 0) :: member_codes) -> marker auto c <> [].
    Proof. intros H. cbn in H. destruct auto, H as [H|[H|[H|[H|[]]]]]; injection H as <- <-; discriminate. Qed.
    Lemma f_arg_rest auto T w sg f n G : length T <= fu -> clean T -> ctx w sg f n G -> 
      pw (arg_rest E (K fu) auto) (fun _ s => reads T G (argp auto) \/ (ended s \/ nothingp auto T G s \/ open_rest auto T G)) (at_ T sg f n).
    Proof.
      intros Hl Hcl Hc. unfold arg_rest.
      assert (Hleft : forall A (m : M A) s, pw m (fun _ _ => reads T G (argp auto)) s -> pw m (fun _ s => reads T G (argp auto) \/ (ended s \/ nothingp auto T G s \/ open_rest auto T G)) s).
      { intros A m s H. eapply pw_mono; [exact H|]. cbv beta. auto. }
      apply pw_bind. apply pw_eats.
      { intros r ->. apply Hleft. eapply pw_mono; [eapply (f_qname E Hout fu IHt IHp); [lenn|eapply clean_app; exact Hcl|exact Hc]|]. cbv beta.
        intros _ _ (t & xs & G' & rest & -> & Hq). destruct auto; (eapply (reads_intro _ _ _ (L "$$Y" ++ t)); [rewrite <- app_assoc; reflexivity|]).
        - intros G0 tt y Hb. eapply tg_auto; [exact Hb|]. apply aa_alias. exact Hq.
        - apply tg_alias. exact Hq. }
      intros _. apply pw_bind. apply pw_eats.
      { intros r ->. apply Hleft. eapply pw_mono; [eapply IHy; [lenn|eapply clean_app; exact Hcl|exact Hc]|]. cbv beta.
        intros _ _ (t & y & G' & rest & -> & Hq). destruct auto; (eapply (reads_intro _ _ _ (L "$$B" ++ t)); [rewrite <- app_assoc; reflexivity|]).
        - intros G0 tt y0 Hb. eapply tg_auto; [exact Hb|]. apply aa_typeb. exact Hq.
        - apply tg_typeb. exact Hq. }
      intros _. apply pw_bind. apply pw_eats.
      { intros r ->. apply Hleft. eapply pw_mono; [eapply IHy; [lenn|eapply clean_app; exact Hcl|exact Hc]|]. cbv beta.
        intros _ _ (t & [m y] & G' & rest & -> & Hq). unfold mtypes in Hq. cbn [fst snd] in Hq. destruct auto; (eapply (reads_intro _ _ _ (L "$$C" ++ t)); [rewrite <- app_assoc; reflexivity|]).
        - intros G0 tt y0 Hb. eapply tg_auto; [exact Hb|]. eapply aa_typec. exact Hq.
        - eapply tg_typec. exact Hq. }
      intros _. apply pw_bind. apply pw_first.
      { intros p r Hp HT. destruct (member_marks _ _ Hp) as (c & cnt & -> & Hcnt & Hi). pose proof (marker_ne auto _ _ Hi) as Hne. subst T. apply pw_bind.
        eapply f_tsym; [lenn|eapply clean_app; exact Hcl|exact Hc| | | |].
        - intros t x id G' rest h s -> Hs Hf Hk. rewrite Hcnt. rewrite (kept_at _ _ Hk). apply Hleft. apply pw_bind. apply pw_offsets. intros t1 zs r' Hz Ho ->.
          apply pw_const. destruct (argp_member auto c cnt G t x id G' t1 zs Hf Hi Hs Hz Ho) as (x' & Hx).
          eapply reads_intro; [|exact Hx]. rewrite <- !app_assoc. reflexivity.
        - intros k rest h s -> Hk Hno Hf Hks. rewrite Hcnt. destruct Hi as [Hi|Hi].
          + injection Hi as <- <-. apply pw_any. intros ? ?. right. right. right. apply open_pointer; assumption.
          + rewrite (kept_at _ _ Hks). apply Hleft. apply pw_bind. apply pw_offsets. intros t1 zs r' Hz Ho ->.
            apply pw_const. destruct (argp_member_md5 auto c cnt G k t1 zs Hf Hk Hi Hz Ho) as (x' & Hx).
            eapply reads_intro; [|exact Hx]. rewrite <- !app_assoc. reflexivity.
        - intros Hq. rewrite Hcnt. apply pw_bind. apply pw_offsets. intros t1 zs r' Hz Ho ->. destruct Hi as [Hi|Hi].
          + injection Hi as <- <-. destruct zs; [|discriminate]. apply offs_inv in Ho. subst t1. cbn [app] in *. eapply (pw_new E Hout); [exact Hc|]. intros C1. right. right. left.
            exists (marker auto (L "1")), r'. do 4 eexists. split; [reflexivity|]. split; [exact Hne|]. split; [reflexivity|]. split; [exact C1|]. split; [exact Hq|].
            intros t' xs G2 Hn Ht. destruct auto.
            * intros G0 tt y Hb. eapply ta_auto_nothing; eassumption.
            * apply ta_nothing; assumption.
          + apply pw_any. intros _ s. left. destruct (argp_bare auto c cnt G t1 zs Hi Hz Ho (q_first _ _ Hq)) as (x' & Hx).
            eapply reads_intro; [|exact Hx]. rewrite <- app_assoc. reflexivity.
        - intros o s He. rewrite Hcnt. rewrite (ended_at _ He). apply pw_bind. apply pw_offsets. intros t1 zs r' Hz Ho Hn. symmetry in Hn. apply app_eq_nil in Hn. destruct Hn as [-> ->].
          eapply pw_ended; [reflexivity|apply keeps_intern|]. auto. }
      intros Hm. apply pw_bind. apply pw_text. destruct (starts_with (L "$E?") T) eqn:HE.
      { apply pw_bind. apply pw_expects. intros r ->. apply pw_bind. eapply (take_symbol E Hout fu IHp); [lenn|eapply clean_app; exact Hcl|exact Hc| | | |].
        - intros t x id G' rest a w' sg' f' n' -> _ Hs _ _ _ _. apply pw_any. intros _ s. left.
          destruct auto; (eapply (reads_intro _ _ _ (L "$E" ++ t)); [rewrite <- app_assoc; reflexivity|]).
          + intros G0 tt y Hb. eapply tg_auto; [exact Hb|]. eapply aa_reference. exact Hs.
          + eapply tg_reference. exact Hs.
        - intros k rest a w' sg' f' n' -> _ Hk Hno _ _ _ _. apply pw_any. intros ? ?. right. right. right. apply open_reference; assumption.
        - intros t x rest a w' sg' f' n' -> _ Ht _ _ _ _. apply pw_any. intros _ s. left.
          destruct auto; (eapply (reads_intro _ _ _ (L "$E" ++ t)); [rewrite <- app_assoc; reflexivity|]).
          + intros G0 tt y Hb. eapply tg_auto; [exact Hb|]. eapply aa_literal. exact Ht.
          + eapply tg_literal. exact Ht.
        - intros a s He. eapply pw_ended; [exact He|apply keeps_intern|]. auto. }
      apply pw_bind. apply pw_first.
      { intros p r Hp HT. destruct (data_marks _ _ Hp) as (c & cnt & -> & Hcnt & Hi). subst T. rewrite Hcnt. apply Hleft. apply pw_bind. apply pw_offsets. intros t1 zs r' Hz Ho ->.
        apply pw_const. destruct (argp_data auto c cnt G t1 zs Hi Hz Ho) as (x' & Hx). eapply reads_intro; [|exact Hx]. rewrite <- app_assoc. reflexivity. }
      intros Hd. apply pw_bind. apply pw_eats.
      { intros r ->. apply Hleft. apply pw_bind. apply pw_number. intros t v neg r' Ht ->. apply pw_const. destruct auto.
        - eapply (reads_intro _ _ _ (L "0" ++ t)); [rewrite <- app_assoc; reflexivity|]. intros G0 tt y Hb. eapply tg_auto_int; eassumption.
        - eapply (reads_intro _ _ _ (L "$0" ++ t)); [rewrite <- app_assoc; reflexivity|]. eapply tg_int; eassumption. }
      intros Hz. apply Hleft. eapply pw_mono; [eapply IHy; eassumption|]. cbv beta. intros _ _ (t & y & G' & rest & -> & Hb). destruct auto; (eapply reads_intro; [reflexivity|]).
      - intros G0 tt y0 Hb0. eapply tg_auto; [exact Hb0|]. apply aa_type; [exact Hb|]. intros c r Hin ->. cbn [app] in *.
        pose proof (Hm [c]) as Hm'. pose proof (Hd [c]) as Hd'. cbn [strip_prefix] in *. rewrite N.eqb_refl in *. cbn in Hin.
        destruct Hin as [<-|[<-|[<-|[<-|[<-|[<-|[<-|[]]]]]]]];
          first [discriminate Hz|discriminate Hm'; cbn; tauto|discriminate Hd'; cbn; tauto].
      - apply tg_type. exact Hb.
    Qed.
    Lemma f_arg T w sg f n G : length T <= fu -> clean T -> ctx w sg f n G -> 
      pw (template_arg E (K fu)) (fun _ s => reads T G (targ E) \/ (ended s \/ nothing T G s \/ open_arg T G)) (at_ T sg f n).
    Proof.
      intros Hl Hcl Hc. rewrite template_arg_eq. apply pw_bind. apply pw_eats.
      - intros r ->. apply pw_bind. apply pw_bind. eapply (take_drop E Hout fu IHy); [lenn|eapply clean_app; exact Hcl|exact Hc|].
        intros tt y G1 rest a w' sg' f' n' -> Hcl' Hl' Hb C1 _. apply pw_ret. eapply pw_mono; [eapply (f_arg_rest true); [exact Hl'|exact Hcl'|exact C1]|]. cbv beta.
        intros _ s [(t & x & G' & rest' & -> & Hx)|[He|[Hn|Hn]]].
        + left. eapply (reads_intro _ _ _ (L "$M" ++ tt ++ t)); [rewrite <- !app_assoc; reflexivity|]. eapply Hx. exact Hb.
        + auto.
        + right. right. left. destruct Hn as (pre & rest' & w2 & sg2 & f2 & n2 & -> & Hne & -> & C2 & Hq & Hn). exists (L "$M" ++ tt ++ pre), rest', w2, sg2, f2, n2, G1.
          split; [rewrite <- !app_assoc; reflexivity|]. split; [discriminate|]. split; [reflexivity|]. split; [exact C2|]. split; [exact Hq|].
          intros t' xs G2 H1 H2. eexists. rewrite <- !app_assoc. eapply (Hn t' xs G2 H1 H2). exact Hb.
        + right. right. right. eapply open_auto; eassumption.
      - intros _. apply pw_bind. apply pw_ret. eapply pw_mono; [eapply (f_arg_rest false); [exact Hl|exact Hcl|exact Hc]|]. cbv beta.
        intros _ s [H|[He|[Hn|Hn]]]; [auto|auto| |right; right; right; apply open_plain; exact Hn]. right. right. left. destruct Hn as (pre & rest' & w2 & sg2 & f2 & n2 & -> & Hne & -> & C2 & Hq & Hn).
        exists pre, rest', w2, sg2, f2, n2, G. repeat (split; [auto|]). intros t' xs G2 H1 H2. eexists. eapply Hn; eassumption.
    Qed.
    Lemma f_args loop : forall acc T w sg f n G, length T <= fu -> clean T -> ctx w sg f n G ->
      pw (targs_loop E (K fu) loop acc) (fun _ _ => reads T G (targs E)) (at_ T sg f n).
    Proof.
      induction loop as [|loop IH]; intros acc T w sg f n G Hl Hcl Hc; [exact I|]. cbn [targs_loop]. apply pw_bind. apply pw_eat.
      { intros r ->. apply pw_const. eapply (reads_intro _ _ _ (L "@")); [reflexivity|]. apply ta_end. }
      intros Ha. apply pw_bind. apply pw_first.
      { intros p r Hp ->. eapply pw_mono; [eapply IH; [lenn|eapply clean_app; exact Hcl|exact Hc]|]. cbv beta. intros _ _ (t & xs & G' & rest & -> & Ht).
        eapply (reads_intro _ _ _ (p ++ t)); [apply app_assoc|]. apply ta_sep; [exact Hp|exact Ht]. }
      intros Hs. apply pw_bind. apply pw_text. destruct (is_empty T); [exact I|]. apply pw_bind.
      apply (take_or E Hout (fun fu => template_arg E (K fu)) (targ E) 0 (fun x _ w' _ h => DS w' KAny h x) (fun _ s => ended s \/ nothing T G s \/ open_arg T G)) with (w := w) (G := G);
        [|exact Hl|exact Hc|eapply f_arg; eassumption| |].
      - intros t x G' Hd B. apply (fw_targ E B _ _ _ _ Hd).
      - intros t x G' rest h w' sg' f' n' -> Hd _ _ C1 _. eapply pw_mono; [eapply (IH (h :: acc)); [lenn|eapply clean_app; exact Hcl|exact C1]|].
        cbv beta. intros _ _ (t' & xs & G2 & rest' & -> & H2). eapply (reads_intro _ _ _ (t ++ t')); [apply app_assoc|]. eapply ta_cons; eassumption.
      - intros h s Hm [He|[Hn|Hn]].
        + rewrite (ended_at _ He). destruct loop; exact I.
        + destruct Hn as (pre & rest & w' & sg' & f' & n' & G' & -> & Hne & -> & C1 & Hq & Hn).
          eapply pw_mono; [eapply (IH (h :: acc)); [lenn|eapply clean_app; exact Hcl|exact C1]|].
          cbv beta. intros _ _ (t' & xs & G2 & rest' & -> & H2). destruct (Hn t' xs G2 (q_first _ _ Hq) H2) as (xs' & H3).
          eapply (reads_intro _ _ _ (pre ++ t')); [apply app_assoc|]. exact H3.
        + destruct Hn as (pre & rest & y & G' & -> & Hne & Hr & Ht).
          refine (take_at E fu (fun fu => template_arg E (K fu)) rest 0 pre (fun _ w' _ h => DS w' KAny h y) w sg f n G G'
            (fun h s => pw (targs_loop E (K fu) loop (h :: acc)) (fun _ _ => reads (pre ++ rest) G (targs E)) s) h s Hr _ Hc Hm _); [lenn|].
          intros w' sg' f' n' _ _ C1 _. eapply pw_mono; [eapply (IH (h :: acc)); [lenn|eapply clean_app; exact Hcl|exact C1]|].
          cbv beta. intros _ _ (t' & xs & G2 & rest' & -> & H2). destruct (Ht t' rest' xs G2 eq_refl H2) as (xs' & H3).
          eapply (reads_intro _ _ _ (pre ++ t')); [apply app_assoc|]. exact H3.
    Qed.

    (** ** Instantiations *)
    Definition argsD k (G : tab) (t : str) (xs : list str) (G' : tab) : Prop := targs E G t xs G' /\ length t <= k.
    Lemma tinst_pw nb T w sg f n G (Q : handle -> st -> Prop) : length T <= S fu -> clean T -> ctx w sg f n G ->
      (forall b i G1 a xs G2 rest h w' sg', T = L "?$" ++ b ++ a ++ rest -> tbase E b i G1 -> targs E G1 a xs G2 -> ext w w' -> ctx w' sg' f n G ->
        (exists nd tp, fresh (length sg) w' sg' h nd /\ idshape (Some tp) i nd /\ idnode E w' (with_targs i (L "<" ++ join (L ", ") xs ++ L ">")) nd) ->
        pw (if nbb_template nb then
              n <- res_ KIdent h ;;
              if is_conv_or_structor n then fail InvalidTemplateInstantiationName
              else memorize_identifier E h ;;; ret h
            else ret h) Q (at_ rest sg' f n)) ->
      pw (demangle_template_instantiation_name E (K fu) nb) Q (at_ T sg f n).
    Proof.
      intros Hl Hcl Hc HQ. unfold demangle_template_instantiation_name. apply pw_bind. apply pw_expects. intros T1 ->. apply clean_app in Hcl.
      eapply pw_step; [apply get_at|].
      eapply (pw_step (fun s => Ok (tt, set_names [] (set_fps [] s))) _ _ _ tt); [reflexivity|].
      change (set_names [] (set_fps [] (at_ T1 sg f n))) with (at_ T1 sg [] []).
      apply pw_bind. eapply take_tbase; [change (length (L "?$" ++ T1)) with (2 + length T1) in Hl; lenn|exact Hcl|eapply ctx_empty; exact Hc|].
      intros b i G1 T2 id w1 sg1 f1 n1 -> Hcl2 Hl2 Hb X1 S1 C1 (nd & tp0 & F1 & I1). pose proof (ext_len _ _ S1) as Hs1.
      apply pw_bind. unfold demangle_template_parameter_list. eapply pw_step; [apply text_at|]. apply pw_bind.
      apply (take E Hout (fun fu => targs_loop E (K fu) (S (length T2)) []) (argsD (S (length T2))) 2 (fun xs _ w' _ l => exists hs, l = rev [] ++ hs /\ Forall2 (DS w' KAny) hs xs)) with (w := w1) (G := G1);
        [|exact Hl2|exact C1| |].
      { intros t xs G' [Hd Hk] B. apply (proj2 (fw_targs E B _ _ _ _ Hd)). exact Hk. }
      { eapply pw_mono; [eapply f_args; eassumption|]. cbv beta. intros _ _ (t & xs & G' & rest & -> & Ht). eapply reads_intro; [reflexivity|]. split; [exact Ht|lenn]. }
      intros a xs G2 rest l w2 sg2 f2 n2 -> [Ha _] X2 S2 C2 (hs & -> & R2). cbn [rev app]. pose proof (ext_len _ _ S2) as Hs2.
      apply (pw_wp (okerr E (length sg2 + 1))). eapply wp_new_known; [exact C2|lia|]. intros C3 M3.
      assert (F3 : fresh (length sg) (w2 ++ [Some (NNodes hs)]) (sg2 ++ [NNodes hs]) id nd).
      { eapply fresh_ext; [eapply ext_trans; [exact X2|apply ext_app]|eapply ext_trans; [exact S2|apply ext_app]|exact F1]. }
      apply pw_bind. apply (pw_wp (okerr E (length sg2 + 1))). eapply (fresh_modify E (length sg2 + 1) _ _ _ _ _ _ _ _ _ nd (length sg) sg); [exact C3|exact F3|eapply idshape_ident; exact I1| |lia|].
      { eapply ext_trans; [exact S1|]. eapply ext_trans; [exact S2|apply ext_app]. }
      intros C4 F4 S4 _ L4.
      match goal with |- pw (bind ?m _) _ ?s => eapply (pw_step m _ _ s tt); [reflexivity|] end.
      match goal with |- pw _ _ (set_names _ (set_fps _ (at_ _ ?S _ _))) => change (pw (if nbb_template nb then
                     n <- res_ KIdent id ;;
                     if is_conv_or_structor n then fail InvalidTemplateInstantiationName
                     else memorize_identifier E id ;;; ret id
                   else ret id) Q (at_ rest S f n)) end.
      eapply (HQ b i G1 a xs G2 rest id (w2 ++ [Some (NNodes hs)])).
      - reflexivity.
      - exact Hb.
      - exact Ha.
      - eapply ext_trans; [exact X1|]. eapply ext_trans; [exact X2|apply ext_app].
      - eapply ctx_mono; [exact Hc| |apply C4]. apply ext_sub. eapply ext_trans; [exact X1|]. eapply ext_trans; [exact X2|apply ext_app].
      - eexists _, _. split; [exact F4|]. pose proof (idshape_set _ _ _ (length sg2) I1) as I2. split; [exact I2|]. eapply idshape_node; [exact I2|].
        eapply more_DS; [exact M3|reflexivity|]. exists xs. split; [|reflexivity]. exact R2.
    Qed.
    Lemma raw_next : good_raw (S fu).
    Proof.
      intros T w sg f n G Hl Hcl Hc. change (k_tinst (K (S fu)) NBB_Simple) with (demangle_template_instantiation_name E (K fu) NBB_Simple).
      eapply tinst_pw; [exact Hl|exact Hcl|exact Hc|]. intros b i G1 a xs G2 rest h w' sg' -> Hb Ha _ _ _. apply pw_const.
      eapply (reads_intro _ _ _ (L "?$" ++ b ++ a) (i, xs)); [rewrite <- !app_assoc; reflexivity|]. split; [reflexivity|]. exists b, G1, a, G2. auto.
    Qed.
    Lemma tinst_next : good_tinst E (S fu).
    Proof.
      intros T w sg f n G Hl Hcl Hc. change (k_tinst (K (S fu)) NBB_Template) with (demangle_template_instantiation_name E (K fu) NBB_Template).
      eapply tinst_pw; [exact Hl|exact Hcl|exact Hc|]. intros b i G1 a xs G2 rest h w' sg' -> Hb Ha X1 C1 (nd & tp & F1 & I0 & I1).
      cbn [nbb_template NBB_Template]. apply pw_bind. apply (pw_wp (okerr E 0)). eapply wp_resolve; [apply F1|eapply idshape_ident; exact I0|].
      destruct i as [y|d y|y]; [|destruct I0 as [_ ->]; exact I|destruct I0 as [_ ->]; exact I].
      cbn [with_targs idnode] in I1. destruct I1 as (I1 & I2 & I3). rewrite I2.
      destruct (fresh_reveal E w _ _ _ _ _ _ _ _ C1 F1 ltac:(rewrite (ctx_len _ _ _ _ _ _ Hc); lia) X1) as (X2 & C2 & M2).
      assert (D2 : DS (reveal w' h nd) KIdent h (y ++ L "<" ++ join (L ", ") xs ++ L ">")) by (eapply more_DS; [exact M2|exact I1|exact I3]).
      apply pw_fst. unfold memorize_identifier. apply pw_bind.
      eapply (pw_render E Hout _ (y ++ L "<" ++ join (L ", ") xs ++ L ">")); [apply (output_emits E (reveal w' h nd)); [apply C2|exact D2|reflexivity]|]. intros Hfit _.
      apply pw_const. eapply (reads_intro _ _ _ (L "?$" ++ b ++ a)); [rewrite <- !app_assoc; reflexivity|]. split; [|reflexivity]. eapply tp_intro; eassumption.
    Qed.
  End At.
End Args.
