(** Reading backwards: types.  Proof infrastructure for [Accepted]. *)
From Verif Require Import Parser Utf8 Show Den Emit Grammar Lex Step Number Pend ReadAt Round RoundNames RoundTypes RoundBody RoundArgs RoundSyms RoundSpecials Trip Sound SoundNames.

Section Types.
  Variable E : env.
  Hypothesis Hout : (0 < e_out E)%N.
  Notation K := (knot_of E).
  Notation ctx := (ctx E).
  Notation DS w := (dstr E (cnt w) w).
  Notation DT w := (dty E (cnt w) w).
  Notation finds := (finds E).

  Lemma pw_new (Q : handle -> st -> Prop) nd t w sg f n G : ctx w sg f n G ->
    (ctx (w ++ [None]) (sg ++ [nd]) f n G -> Q (length sg) (at_ t (sg ++ [nd]) f n)) -> pw (intern E nd) Q (at_ t sg f n).
  Proof. intros Hc HQ. eapply pw_wp. eapply (wp_new_hidden E (length sg + 1)); [exact Hc|lia|exact HQ]. Qed.
  Lemma pw_intern (Q : handle -> st -> Prop) nd t sg f n : Q (length sg) (at_ t (sg ++ [nd]) f n) -> pw (intern E nd) Q (at_ t sg f n).
  Proof. intros H. unfold pw, intern. destruct (_ <? _)%N; [exact I|exact H]. Qed.

  (** [take], forgetting what was built. *)
  Lemma skip_ {A Y} (m : nat -> M A) (D : tab -> str -> Y -> tab -> Prop) d (R : Y -> nat -> world -> store -> A -> Prop) fu T w sg f n G (Q : A -> st -> Prop) :
    (forall t y G', D G t y G' -> forall B, rd E B d t G G' m (R y)) -> length T <= fu -> clean T -> ctx w sg f n G ->
    finds fu (m fu) D ->
    (forall t y G' rest a w' sg' f' n', T = t ++ rest -> clean rest -> length rest <= fu -> D G t y G' -> ctx w' sg' f' n' G' -> R y (length sg) w' sg' a -> Q a (at_ rest sg' f' n')) ->
    pw (m fu) Q (at_ T sg f n).
  Proof.
    intros HF Hl Hcl Hc Hm HQ. apply (take E Hout m D d R) with (w := w) (G := G); auto.
    - eapply Hm; eassumption.
    - intros t y G' rest a w' sg' f' n' HT Hd _ _ C1 R1. eapply HQ; eauto; subst T; [eapply clean_app; exact Hcl|lenn].
  Qed.

  Definition mtypes (G : tab) (t : str) (p : bool * ty) (G' : tab) : Prop := mtype E (fst p) G t (snd p) G'.
  Definition good_type fu := finds fu (k_type (K fu) QDrop) (body E) /\ finds fu (k_type (K fu) QMangle) mtypes /\ finds fu (k_type (K fu) QResult) (rtype E).

  Section At.
    Variable fu : nat.
    Hypothesis IHt : good_tinst E fu.
    Hypothesis IHp : good_parse E fu.
    Hypothesis IHy : good_type fu.

    Ltac rin t := eapply (reads_intro _ _ _ t); [rewrite <- ?app_assoc; reflexivity|].

    Lemma take_drop T w sg f n G (Q : handle -> st -> Prop) : length T <= fu -> clean T -> ctx w sg f n G ->
      (forall t y G' rest a w' sg' f' n', T = t ++ rest -> clean rest -> length rest <= fu -> body E G t y G' -> ctx w' sg' f' n' G' -> DT w' a y -> Q a (at_ rest sg' f' n')) ->
      pw (k_type (K fu) QDrop) Q (at_ T sg f n).
    Proof.
      intros Hl Hcl Hc HQ. eapply (skip_ (fun fu => k_type (K fu) QDrop) (body E) 0 (fun y _ w' _ h => DT w' h y)); [|exact Hl|exact Hcl|exact Hc|apply IHy|exact HQ].
      intros t y G' Hd B. apply drop_known. apply fw_body. exact Hd.
    Qed.
    Lemma take_rtype T w sg f n G (Q : handle -> st -> Prop) : length T <= fu -> clean T -> ctx w sg f n G ->
      (forall t y G' rest a w' sg' f' n', T = t ++ rest -> clean rest -> length rest <= fu -> rtype E G t y G' -> ctx w' sg' f' n' G' -> pend E (length sg) w' sg' a y -> Q a (at_ rest sg' f' n')) ->
      pw (k_type (K fu) QResult) Q (at_ T sg f n).
    Proof.
      intros Hl Hcl Hc HQ. eapply (skip_ (fun fu => k_type (K fu) QResult) (rtype E) 0 (fun y n0 w' sg' h => pend E n0 w' sg' h y)); [|exact Hl|exact Hcl|exact Hc|apply IHy|exact HQ].
      intros t y G' Hd B. apply (fw_rtype E B _ _ _ _ Hd).
    Qed.

    (** ** Parameters *)
    Lemma f_params loop : forall acc T w sg f n G, length T <= fu -> clean T -> ctx w sg f n G ->
      pw (params_loop (K fu) loop acc) (fun _ _ => exists t ys G' rest, T = t ++ rest /\ params E G t ys G' /\ first_is (one_of (L "@Z")) rest = true) (at_ T sg f n).
    Proof.
      induction loop as [|loop IH]; intros acc T w sg f n G Hl Hcl Hc; [exact I|]. cbn [params_loop]. apply pw_bind. apply pw_text.
      destruct (first_is (one_of (L "@Z")) T) eqn:Hz.
      { apply pw_const. exists [], [], G, T. split; [reflexivity|]. split; [apply ps_nil|exact Hz]. }
      destruct (is_empty T) eqn:He; [exact I|]. apply pw_bind. apply pw_eatif.
      - intros c r -> Hd. destruct (digit_eq c Hd) as (i & Hi & ->). eapply pw_step; [apply get_at|]. apply pw_bind. change (s_fps _) with f. rewrite digit_val.
        destruct (nth_error f i) as [h|] eqn:Hh; [|exact I]. apply pw_ret. pose proof Hc as (_ & Hf & _).
        assert (Hy : exists y, nth_error (snd G) i = Some y).
        { destruct (nth_error (snd G) i) as [x|] eqn:Hx; [eauto|]. exfalso. apply nth_error_None in Hx. rewrite <- (forall2_len _ _ _ Hf) in Hx.
          apply nth_error_None in Hx. congruence. }
        destruct Hy as (y & Hy). eapply pw_mono; [eapply (IH (h :: acc)); [lenn|eapply clean_cons; exact Hcl|exact Hc]|]. cbv beta.
        intros _ _ (t & ys & G' & rest & -> & Hps & Hr). exists (digit_char i :: t), (y :: ys), G', rest. split; [reflexivity|]. split; [|exact Hr].
        apply (ps_cons _ _ [digit_char i] y G t ys G'); [apply pa_ref; assumption|exact Hps].
      - intros _. eapply pw_step; [apply len_at|]. apply pw_bind. eapply take_drop; [exact Hl|exact Hcl|exact Hc|].
        intros t y G' rest a w' sg' f' n' -> Hcl' Hl' Hb C1 R1. eapply pw_step; [apply len_at|]. rewrite app_length.
        destruct (_ <? _) eqn:Hlt; [exact I|]. replace (length t + length rest - length rest) with (length t) by lia.
        assert (Hgo : forall f2 G2, ctx w' sg' f2 n' G2 -> param E G (t) y G2 ->
          pw (params_loop (K fu) loop (a :: acc)) (fun _ _ => exists t' ys G' rest', t ++ rest = t' ++ rest' /\ params E G t' ys G' /\ first_is (one_of (L "@Z")) rest' = true) (at_ rest sg' f2 n')).
        { intros f2 G2 C2 Hp. eapply pw_mono; [eapply (IH (a :: acc)); [exact Hl'|exact Hcl'|exact C2]|]. cbv beta.
          intros _ _ (t' & ys & G3 & rest' & -> & Hps & Hr). exists (t ++ t'), (y :: ys), G3, rest'. split; [apply app_assoc|]. split; [eapply ps_cons; eassumption|exact Hr]. }
        destruct (length t) as [|[|k]] eqn:Hlen; [exact I| |].
        + apply pw_bind. apply pw_ret. apply (Hgo f' G'); [exact C1|]. apply pa_short; assumption.
        + eapply pw_step; [apply params_fps|]. eapply (Hgo _ (remember_param y G')); [|apply pa_long; [exact Hb|lia]].
          destruct C1 as (Ca & Cb & Cc). unfold remember_param. rewrite <- (forall2_len _ _ _ Cb). destruct (length f' <? 10); [|split; auto].
          split; [exact Ca|]. split; [|exact Cc]. cbn [snd]. apply Forall2_app; [exact Cb|]. constructor; [exact R1|constructor].
    Qed.
    Definition plists (G : tab) (t : str) (p : option (list ty) * bool) (G' : tab) : Prop := plist E G t (fst p) (snd p) G'.
    Lemma f_plist : finds fu (demangle_function_parameter_list E (K fu)) plists.
    Proof.
      intros T w sg f n G Hl Hcl Hc. unfold demangle_function_parameter_list. apply pw_bind. apply pw_eat.
      - intros r ->. apply pw_const. eapply (reads_intro _ _ _ (L "X") (None, false)); [reflexivity|]. apply pl_void.
      - intros HX. apply pw_bind. apply pw_text. apply pw_fst. eapply pw_mono; [eapply f_params; eassumption|]. cbv beta.
        intros _ _ (t & ys & G' & rest & -> & Hps & Hr). assert (Hx : first_is_not "X"%char t) by (intros z ->; cbn in HX; discriminate).
        destruct rest as [|c r]; [discriminate|]. change ((c =? ch "@")%N || ((c =? ch "Z")%N || false) = true) in Hr. destruct (N.eqb_spec c (ch "@")) as [->|_].
        + eapply (reads_intro _ _ _ (t ++ L "@") (Some ys, false)); [rewrite <- app_assoc; reflexivity|]. apply pl_fixed; eassumption.
        + destruct (N.eqb_spec c (ch "Z")) as [->|_]; [|discriminate Hr].
          eapply (reads_intro _ _ _ (t ++ L "Z") (Some ys, true)); [rewrite <- app_assoc; reflexivity|]. apply pl_variadic; eassumption.
    Qed.
    Lemma f_this th T sg f n (Q : N * option ref_qual -> st -> Prop) : (forall tt q rq r, this_code th tt q rq -> T = tt ++ r -> Q (q, rq) (at_ r sg f n)) ->
      pw (this_m th) Q (at_ T sg f n).
    Proof.
      intros HQ. destruct th; [|apply pw_ret; eapply HQ; [apply th_none|reflexivity]]. unfold this_m. apply pw_bind. apply pw_ext. intros p r u t1 ->.
      apply pw_bind. apply pw_ref. intros rt rq t2 Hr ->. apply pw_bind. apply pw_quals. intros m c v t3 ->. apply pw_ret.
      eapply HQ; [apply th_quals; exact Hr|]. rewrite <- !app_assoc. reflexivity.
    Qed.
    Lemma f_fn_rest th tt q rq l cc rt r G G1 rest o w' sg' f' n' q' rq' cc' : this_code th tt q rq -> cc_code l cc -> rett E G rt r G1 ->
      length rest <= fu -> clean rest -> ctx w' sg' f' n' G1 ->
      pw ('(params, variadic) <- demangle_function_parameter_list E (K fu);; ne <- demangle_throw_specification;;
          intern E (NFSig (mkFsig q' cc' FC_Global rq' o variadic params ne)))
        (fun _ _ => reads (tt ++ l :: rt ++ rest) G (fn E th)) (at_ rest sg' f' n').
    Proof.
      intros Hth Hcc Hr Hl Hcl C1. apply pw_bind.
      eapply (skip_ (fun fu => demangle_function_parameter_list E (K fu)) plists 0 (fun p _ w' _ o =>
        snd o = snd p /\ opt_rel (fun h l => DS w' KNodes h (join (L ", ") (map (show E) l))) (fst o) (fst p))); [|exact Hl|exact Hcl|exact C1|apply f_plist|].
      - intros t [ps v] G' Hd B. apply (proj2 (fw_plist E B _ _ _ _ _ Hd)).
      - intros t [ps v] G2 rest2 [a b] w2 sg2 f2 n2 -> Hcl2 _ Hps C2 _. apply pw_bind. apply pw_throw. intros ne r3 ->. apply pw_const.
        eapply (reads_intro _ _ _ (tt ++ [l] ++ rt ++ t ++ throw_code ne)); [rewrite <- !app_assoc; reflexivity|]. eapply fn_intro; eassumption.
    Qed.
    Lemma f_fn th : finds fu (demangle_function_type E (K fu) th) (fn E th).
    Proof.
      intros T w sg f n G Hl Hcl Hc. unfold demangle_function_type. fold (this_m th). apply pw_bind. apply f_this. intros tt q rq T1 Hth ->.
      apply clean_app in Hcl. cbv iota beta. apply pw_bind. apply pw_cc. intros l cc T2 Hcc ->. apply clean_cons in Hcl. apply pw_bind. apply pw_eat.
      - intros T3 ->. apply pw_bind. apply pw_ret. cbv iota beta. change (ch "@" :: T3) with (L "@" ++ T3) in *.
        eapply f_fn_rest; [exact Hth|exact Hcc|apply re_none|lenn|eapply clean_app; exact Hcl|exact Hc].
      - intros _. apply pw_bind. apply pw_bind. eapply take_rtype; [lenn|exact Hcl|exact Hc|].
        intros t y G' rest a w' sg' f' n' -> Hcl' Hl' Hr C1 _. apply pw_ret. cbv iota beta.
        eapply f_fn_rest; [exact Hth|exact Hcc|eapply re_some; exact Hr|exact Hl'|exact Hcl'|exact C1].
    Qed.

    (** ** The kinds of types *)
    Lemma take_dims loop : forall rank acc T w sg f n G (Q : list handle -> st -> Prop), ctx w sg f n G ->
      (forall t ds r l w' sg' f' n', dims t ds -> N.of_nat (length ds) = rank -> T = t ++ r -> ctx w' sg' f' n' G -> Q l (at_ r sg' f' n')) ->
      pw (dims_loop E loop rank acc) Q (at_ T sg f n).
    Proof.
      induction loop as [|loop IH]; intros rank acc T w sg f n G Q Hc HQ; cbn [dims_loop].
      - destruct (N.eqb_spec rank 0) as [->|]; [|exact I]. apply pw_ret. eapply (HQ [] []); [constructor|reflexivity|reflexivity|exact Hc].
      - destruct (N.eqb_spec rank 0) as [->|]; [apply pw_ret; eapply (HQ [] []); [constructor|reflexivity|reflexivity|exact Hc]|].
        apply pw_bind. apply pw_number. intros t v [] r Ht ->; [exact I|]. apply pw_bind. eapply pw_new; [exact Hc|]. intros C1.
        eapply IH; [exact C1|]. intros t' ds r' l w' sg' f' n' Hd Hl -> C2. destruct Ht as (d & Hn & ->).
        eapply (HQ (d ++ t') (v :: ds)); [constructor; assumption|cbn [length]; lia|apply app_assoc|exact C2].
    Qed.
    Lemma f_array : finds (S fu) (demangle_array_type E (K fu)) (body E).
    Proof.
      intros T w sg f n G Hl Hcl Hc. unfold demangle_array_type. apply pw_bind. apply pw_expect. intros T1 ->. apply clean_cons in Hcl.
      apply pw_bind. apply pw_number. intros rt rank neg T2 Hr ->. apply clean_app in Hcl. cbv iota beta. apply pw_if; [intros _; exact I|].
      intros Hb. destruct neg; [discriminate|]. cbn [orb] in Hb. apply N.eqb_neq in Hb. destruct Hr as (d & Hr & ->).
      apply pw_bind. apply pw_text. apply pw_bind. eapply take_dims; [exact Hc|]. intros dt ds T3 l w' sg' f' n' Hd Hlen -> C1. apply clean_app in Hcl. subst rank.
      assert (Hne : ds <> []) by (intros ->; apply Hb; reflexivity).
      apply pw_bind. eapply pw_new; [exact C1|]. intros C2. apply pw_bind. apply pw_eats.
      - intros T4 ->. apply clean_app in Hcl. apply pw_bind. apply pw_bind. apply pw_quals. intros [] c v T5 ->; [exact I|]. apply clean_cons in Hcl.
        apply pw_ret. apply pw_bind. eapply take_drop; [lenn|exact Hcl|exact C2|]. intros t y G' rest a w2 sg2 f2 n2 -> _ _ Hy _ _. apply pw_const.
        eapply (reads_intro _ _ _ (L "Y" ++ d ++ dt ++ L "$$C" ++ [cv_code false c v] ++ t)); [rewrite <- !app_assoc; reflexivity|]. apply bo_array_cv; eassumption.
      - intros _. apply pw_bind. apply pw_ret. apply pw_bind. eapply take_drop; [lenn|exact Hcl|exact C2|]. intros t y G' rest a w2 sg2 f2 n2 -> _ _ Hy _ _. apply pw_const.
        eapply (reads_intro _ _ _ (L "Y" ++ d ++ dt ++ t)); [rewrite <- !app_assoc; reflexivity|]. eapply bo_array; eassumption.
    Qed.
    Lemma f_class : finds (S fu) (demangle_class_type E (K fu)) (body E).
    Proof.
      intros T w sg f n G Hl Hcl Hc. unfold demangle_class_type. apply pw_bind. apply pw_next. intros c T1 ->.
      assert (Hgo : forall k T2, c :: T1 = tag_code k ++ T2 -> 
        pw (qn <- demangle_fully_qualified_type_name E (K fu) ;; intern E (NTag Q_None qn k)) (fun _ _ => reads (c :: T1) G (body E)) (at_ T2 sg f n)).
      { intros k T2 HT. rewrite HT in *. apply pw_fst. eapply pw_mono; [eapply (f_qname E Hout fu IHt IHp); [|eapply clean_app; exact Hcl|exact Hc]|].
        - assert (1 <= length (tag_code k)) by (destruct k; cbn; lia). lenn.
        - cbv beta. intros _ _ (t & xs & G' & rest & -> & Hq). eapply (reads_intro _ _ _ (tag_code k ++ t)); [apply app_assoc|]. apply bo_tag. exact Hq. }
      apply pw_bind. destruct (N.eqb_spec c (ch "T")) as [->|_]; [apply pw_ret, Hgo; reflexivity|].
      destruct (N.eqb_spec c (ch "U")) as [->|_]; [apply pw_ret, Hgo; reflexivity|].
      destruct (N.eqb_spec c (ch "V")) as [->|_]; [apply pw_ret, Hgo; reflexivity|].
      destruct (N.eqb_spec c (ch "W")) as [->|_]; [|exact I]. apply pw_bind. apply pw_eat; [|intros _; exact I].
      intros T2 ->. apply pw_ret, Hgo. reflexivity.
    Qed.
    Lemma f_custom : finds (S fu) (demangle_custom_type E (K fu)) (body E).
    Proof.
      intros T w sg f n G Hl Hcl Hc. unfold demangle_custom_type. apply pw_bind. apply pw_expect. intros T1 ->. apply clean_cons in Hcl.
      apply pw_bind. eapply (take_tname E Hout fu IHt); [lenn|exact Hcl|exact Hc|].
      intros t x G' rest a w' sg' f' n' -> _ Hx _ _ _ _. apply pw_bind. apply pw_eat; [|intros _; exact I]. intros r ->. apply pw_const.
      eapply (reads_intro _ _ _ (L "?" ++ t ++ L "@")); [rewrite <- !app_assoc; reflexivity|]. apply bo_custom. exact Hx.
    Qed.
    Lemma f_prim : finds (S fu) (demangle_primitive_type E) (body E).
    Proof.
      intros T w sg f n G Hl Hcl Hc. unfold demangle_primitive_type. apply pw_bind. apply pw_prim. intros k r ->. apply pw_const.
      eapply reads_intro; [reflexivity|]. apply bo_prim.
    Qed.
    Lemma pcode_len pt q a : pointer_code pt q a -> 1 <= length pt.
    Proof. destruct 1; cbn; lia. Qed.
    Lemma f_pointer T w sg f n G : is_member_pointer T = Some false -> length T <= S fu -> clean T -> ctx w sg f n G ->
      pw (demangle_pointer_type E (K fu)) (fun _ _ => reads T G (body E)) (at_ T sg f n).
    Proof.
      intros Hm Hl Hcl Hc. unfold demangle_pointer_type. apply pw_bind. apply pw_pcv. intros pt q a T1 Hp ->. pose proof (pcode_len _ _ _ Hp) as Hpl.
      apply clean_app in Hcl. cbv iota beta. apply pw_bind. apply pw_eat.
      - intros T2 ->. apply clean_cons in Hcl. apply pw_fst. apply pw_fst. eapply pw_mono; [eapply (f_fn false); [lenn|exact Hcl|exact Hc]|].
        cbv beta. intros _ _ (t & y & G' & rest & -> & Hf). eapply (reads_intro _ _ _ (pt ++ L "6" ++ t)); [rewrite <- !app_assoc; reflexivity|].
        apply bo_fn_pointer; eassumption.
      - intros _. apply pw_fst. apply pw_bind. apply pw_ext. intros p r u T2 ->. apply clean_app in Hcl. apply pw_fst.
        eapply pw_mono; [eapply IHy; [lenn|exact Hcl|exact Hc]|]. cbv beta. intros _ _ (t & [m y] & G' & rest & -> & Hd). unfold mtypes in Hd. cbn [fst snd] in Hd.
        eapply (reads_intro _ _ _ (pt ++ ext_code p r u ++ t)); [rewrite <- !app_assoc; reflexivity|].
        destruct m; [|apply bo_pointer; eassumption]. apply bo_reference; [exact Hp| |exact Hd]. intros ->. inversion Hd; subst.
        destruct (member_pointer pt q p r u c v (t0 ++ rest) Hp) as (_ & _ & Hx & _). cbn [app] in Hm. congruence.
    Qed.
    Lemma f_member_pointer T w sg f n G : is_member_pointer T = Some true -> length T <= S fu -> clean T -> ctx w sg f n G ->
      pw (demangle_member_pointer_type E (K fu)) (fun _ _ => reads T G (body E)) (at_ T sg f n).
    Proof.
      intros Hm Hl Hcl Hc. unfold demangle_member_pointer_type. apply pw_bind. apply pw_pcv. intros pt q a T1 Hp ->. pose proof (pcode_len _ _ _ Hp) as Hpl.
      apply clean_app in Hcl. cbv iota beta. destruct a; try exact I. apply pw_bind. apply pw_ext. intros p r u T2 ->. apply clean_app in Hcl. apply pw_bind. apply pw_eat.
      - intros T3 ->. apply clean_cons in Hcl. assert (He : ext_code p r u = []).
        { inversion Hp; subst. destruct c, v, p, r, u; try reflexivity; discriminate Hm. }
        rewrite He in *. cbn [app]. apply pw_bind. eapply (take_qname E Hout fu IHt IHp); [lenn|exact Hcl|exact Hc|].
        intros t xs G' rest a w' sg' f' n' -> Hcl' Hq _ _ C1 _. apply pw_fst. eapply pw_mono; [eapply (f_fn true); [lenn|exact Hcl'|exact C1]|].
        cbv beta. intros _ _ (t' & y & G2 & rest' & -> & Hf). eapply (reads_intro _ _ _ (pt ++ L "8" ++ t ++ t')); [rewrite <- !app_assoc; reflexivity|].
        eapply bo_member_fn_pointer; eassumption.
      - intros _. apply pw_bind. apply pw_quals. intros [] c v T3 ->; [|exact I]. apply clean_cons in Hcl. apply pw_bind.
        eapply (take_qname E Hout fu IHt IHp); [lenn|exact Hcl|exact Hc|]. intros t xs G' rest a w' sg' f' n' -> Hcl' Hq _ _ C1 _. apply pw_fst.
        eapply pw_mono; [eapply IHy; [lenn|exact Hcl'|exact C1]|]. cbv beta. intros _ _ (t' & y & G2 & rest' & -> & Hy).
        eapply (reads_intro _ _ _ (pt ++ ext_code p r u ++ [cv_code true c v] ++ t ++ t')); [rewrite <- !app_assoc; reflexivity|].
        eapply bo_member_pointer; eassumption.
    Qed.
    Lemma f_unq : finds (S fu) (unq E (K fu)) (body E).
    Proof.
      intros T w sg f n G Hl Hcl Hc. unfold unq. apply pw_bind. apply pw_text.
      destruct (is_tag_type T); [eapply f_class; eassumption|]. destruct (is_pointer_type T).
      { destruct (is_member_pointer T) as [[]|] eqn:Hm; [eapply f_member_pointer; eassumption|eapply f_pointer; eassumption|exact I]. }
      destruct (is_array_type T); [eapply f_array; eassumption|]. destruct (is_function_type T).
      { apply pw_bind. apply pw_eats.
        - intros r ->. change (length (L "$$A8@@" ++ r)) with (6 + length r) in Hl. apply clean_app in Hcl. eapply pw_mono; [eapply (f_fn true); [lenn|exact Hcl|exact Hc]|].
          cbv beta. intros _ _ (t & y & G2 & rest & -> & Hf). eapply (reads_intro _ _ _ (L "$$A8@@" ++ t)); [rewrite <- !app_assoc; reflexivity|]. apply bo_member_fn. exact Hf.
        - intros _. apply pw_bind. apply pw_eats; [|intros _; exact I]. intros r ->. change (length (L "$$A6" ++ r)) with (4 + length r) in Hl. apply clean_app in Hcl. eapply pw_mono; [eapply (f_fn false); [lenn|exact Hcl|exact Hc]|].
          cbv beta. intros _ _ (t & y & G2 & rest & -> & Hf). eapply (reads_intro _ _ _ (L "$$A6" ++ t)); [rewrite <- !app_assoc; reflexivity|]. apply bo_fn. exact Hf. }
      destruct (is_custom_type T); [eapply f_custom|eapply f_prim]; eassumption.
    Qed.
    (** Types, one level up. *)
    Lemma f_type m Y (D : tab -> str -> Y -> tab -> Prop) :
      (forall T w sg f n G, length T <= S fu -> clean T -> ctx w sg f n G ->
        pw (type_quals m) (fun _ s => exists pre T', T = pre ++ T' /\ s = at_ T' sg f n /\ forall t y G' rest, T' = t ++ rest -> body E G t y G' -> exists y', D G (pre ++ t) y' G') (at_ T sg f n)) ->
      finds (S fu) (k_type (K (S fu)) m) D.
    Proof.
      intros H T w sg f n G Hl Hcl Hc. specialize (H T w sg f n G Hl Hcl Hc). change (k_type (K (S fu)) m) with (demangle_type E (K fu) m).
      unfold pw in *. destruct (type_quals m (at_ T sg f n)) as [[q s]|e| |] eqn:Hq.
      - destruct H as (pre & T' & -> & -> & HD). destruct T' as [|c T'].
        + unfold demangle_type. fold (type_quals m). rewrite (bind_eq _ _ _ _ _ Hq). exact I.
        + rewrite (demangle_type_eq E (K fu) m _ _ _ Hq) by discriminate.
          enough (Hp : pw (ty <- unq E (K fu);; modify KType ty (append_quals q);;; ret ty) (fun _ _ => reads (pre ++ c :: T') G D) (at_ (c :: T') sg f n)) by exact Hp.
          apply pw_fst. eapply pw_mono; [eapply f_unq; [lenn|eapply clean_app; exact Hcl|exact Hc]|]. cbv beta.
          intros _ _ (t & y & G' & rest & HT & Hb). destruct (HD _ _ _ _ HT Hb) as (y' & Hd). rewrite HT. eapply reads_intro; [apply app_assoc|exact Hd].
      - unfold demangle_type. fold (type_quals m). unfold bind at 1. rewrite Hq. exact I.
      - unfold demangle_type. fold (type_quals m). unfold bind at 1. rewrite Hq. exact I.
      - unfold demangle_type. fold (type_quals m). unfold bind at 1. rewrite Hq. exact I.
    Qed.
    Lemma type_next : good_type (S fu).
    Proof.
      split; [|split]; apply f_type; intros T w sg f n G Hl Hcl Hc; unfold type_quals.
      - apply pw_ret. exists [], T. split; [reflexivity|]. split; [reflexivity|]. intros t y G' rest _ Hb. exists y. exact Hb.
      - apply pw_bind. apply pw_quals. intros m c v r ->. apply pw_ret. exists [cv_code m c v], r. split; [reflexivity|]. split; [reflexivity|].
        intros t y G' rest _ Hb. eexists (m, _). apply mt_intro. exact Hb.
      - apply pw_bind. apply pw_eat.
        + intros r ->. apply pw_bind. apply pw_quals. intros m c v r' ->. apply pw_ret. exists (L "?" ++ [cv_code m c v]), r'. split; [reflexivity|]. split; [reflexivity|].
          intros t y G' rest _ Hb. eexists. apply (rt_quals E m c v). exact Hb.
        + intros Hq. apply pw_ret. exists [], T. split; [reflexivity|]. split; [reflexivity|]. intros t y G' rest -> Hb. exists y. cbn [app]. apply rt_plain; [exact Hb|].
          intros r ->. discriminate Hq.
    Qed.
  End At.
End Types.
