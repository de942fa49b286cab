(** Printing a node that denotes a C++ text writes that text.  Proof infrastructure. *)
From Verif Require Import Output Utf8 Show Den.

Section Emit.
  Variable E : env.
  Definition good (b : buf) (s : str) : Prop := b_bytes b = utf8 s /\ ustr s.
  (** On a buffer that holds [s] the action [w] appends [x], or runs out of room. *)
  Definition room (s x : str) : Prop := x = [] \/ (N.of_nat (length (utf8 (s ++ x))) < e_out E)%N.
  Definition emits (w : W) (s x : str) : Prop :=
    forall b, good b s ->
      (exists b', w b = (b', Ok tt) /\ good b' (s ++ x) /\ room s x) \/
      (exists b', w b = (b', Err (Io OutOfMemory)) /\ (e_out E <= N.of_nat (length (utf8 (s ++ x))))%N).
  Definition calm (s : str) : Prop := ends_word E s = false.
  Definition prints (w : W) (x : str) : Prop := forall s, emits w s x.
  Definition printc (w : W) (x : str) : Prop := forall s, calm s -> emits w s x.

  Lemma emits_ret s : emits w_ret s [].
  Proof. intros b H. left. exists b. rewrite app_nil_r. split; [reflexivity|]. split; [exact H|]. left. reflexivity. Qed.
  Lemma emits_put x s : ustr x -> emits (put E x) s x.
  Proof.
    intros Hx b [Hb Hs]. unfold put, w_str. destruct x as [|c x]; [left; exists b; rewrite app_nil_r; split; [reflexivity|split; [split; assumption|left; reflexivity]]|].
    remember (c :: x) as y eqn:Hy. cbv zeta. destruct (N.ltb_spec (N.of_nat (length (b_bytes b) + length (utf8 y))) (e_out E)) as [Hlt|Hge].
    - left. eexists. split; [reflexivity|]. split; [split; [cbn [b_bytes]; rewrite Hb, utf8_app; reflexivity|apply Forall_app; split; assumption]|].
      right. rewrite utf8_app, app_length, <- Hb. exact Hlt.
    - right. eexists. split; [reflexivity|]. rewrite utf8_app, app_length, <- Hb. exact Hge.
  Qed.
  Lemma emits_seq m k s x y : emits m s x -> emits k (s ++ x) y -> emits (m >> k) s (x ++ y).
  Proof.
    intros Hm Hk b Hb. unfold w_seq. destruct (Hm b Hb) as [(b' & -> & Hb' & Hr)|(b' & -> & He)].
    - rewrite app_assoc. destruct (Hk b' Hb') as [(b2 & -> & Hb2 & Hr2)|H]; [|right; exact H]. left. exists b2. split; [reflexivity|]. split; [exact Hb2|].
      destruct Hr2 as [->|Hr2]; [|right; rewrite app_assoc; exact Hr2]. rewrite app_nil_r. exact Hr.
    - right. exists b'. split; [reflexivity|]. rewrite app_assoc, utf8_app, app_length. lia.
  Qed.
  Lemma emits_if (c : bool) m s x : (c = true -> emits m s x) -> emits (w_if c m) s (opt c x).
  Proof. intros H. destruct c; [apply H; reflexivity|apply emits_ret]. Qed.
  Lemma emits_ifr (c : bool) s : emits (w_if c w_ret) s [].
  Proof. destruct c; apply emits_ret. Qed.
  Lemma emits_eq w s x y : x = y -> emits w s x -> emits w s y.
  Proof. intros ->. auto. Qed.
  Lemma rev_last (s : str) c r : rev s = c :: r -> s = rev r ++ [c].
  Proof. intros H. rewrite <- (rev_involutive s), H. reflexivity. Qed.
  Lemma last_good b s : good b s -> last_char b = match rev s with c :: _ => Some c | [] => None end.
  Proof. intros [Hb Hs]. unfold last_char. rewrite Hb, from_utf8_utf8 by exact Hs. reflexivity. Qed.
  Lemma emits_space s : emits (space_if_necessary E) s (opt (ends_word E s) (L " ")).
  Proof.
    intros b Hb. unfold space_if_necessary. rewrite (last_good b s Hb). unfold ends_word.
    destruct (rev s) as [|c r]; [apply (emits_ret s b Hb)|]. destruct (_ || _); [|apply (emits_ret s b Hb)].
    apply (emits_put (L " ") s); [repeat constructor|exact Hb].
  Qed.

  Lemma ends_app s x : ends_word E (s ++ x) = match x with [] => ends_word E s | _ => ends_word E x end.
  Proof.
    unfold ends_word. rewrite rev_app_distr. destruct x as [|c x]; [reflexivity|].
    destruct (rev (c :: x)) as [|d r] eqn:Hr; [|reflexivity]. apply (f_equal (@length N)) in Hr. rewrite rev_length in Hr. discriminate.
  Qed.
  Lemma ends_calm s x : calm s -> ends_word E (s ++ x) = ends_word E x.
  Proof. intros H. rewrite ends_app. destruct x; [exact H|reflexivity]. Qed.
  Lemma calm_nil : calm [].
  Proof. reflexivity. Qed.
  Lemma calm_app s x : x <> [] -> calm x -> calm (s ++ x).
  Proof. intros Hx H. unfold calm. rewrite ends_app. destruct x; [congruence|exact H]. Qed.
  Lemma calm_app2 s x : calm s -> calm x -> calm (s ++ x).
  Proof. intros Hs H. unfold calm. rewrite ends_calm by exact Hs. exact H. Qed.
  Lemma calm_opt s b x : calm s -> (calm (s ++ x)) -> calm (s ++ opt b x).
  Proof. intros Hs H. destruct b; [exact H|]. cbn. rewrite app_nil_r. exact Hs. Qed.
  (** A text that ends in a known character that is not part of a word. *)
  Lemma calm_end s x c : (c <? 128)%N = true -> is_ascii_alnum c || (c =? ch ">")%N = false -> calm (s ++ x ++ [c]).
  Proof.
    intros Hc H. rewrite app_assoc. unfold calm, ends_word. rewrite rev_app_distr. cbn. unfold is_alphanumeric. rewrite Hc. exact H.
  Qed.
  Lemma sp_calm x : calm (sp E x).
  Proof.
    unfold sp. destruct (ends_word E x) eqn:H; cbn [opt]; [|rewrite app_nil_r; exact H].
    change (x ++ L " ") with (x ++ [] ++ [ch " "]). apply calm_end; reflexivity.
  Qed.
  (** Printing on a calm buffer, then making room. *)
  Lemma emits_sp m k s x y : calm s -> emits m s x -> emits k (s ++ sp E x) y -> emits (m >> space_if_necessary E >> k) s (sp E x ++ y).
  Proof.
    intros Hs Hm Hk. unfold sp in *. rewrite <- app_assoc. apply emits_seq; [exact Hm|].
    apply emits_seq; [|rewrite app_assoc in Hk; exact Hk].
    rewrite <- (ends_calm s x Hs). apply emits_space.
  Qed.
  Lemma prints_c w x : prints w x -> printc w x.
  Proof. intros H s _. apply H. Qed.

  Lemma ustr_app x y : ustr x -> ustr y -> ustr (x ++ y).
  Proof. intros H1 H2. apply Forall_app. auto. Qed.
  Lemma ustr_dec n : ustr (dec_N n).
  Proof.
    assert (H : forall f n acc, ustr acc -> ustr (dec_loop f n acc)).
    { induction f as [|f IH]; intros m acc Ha; cbn [dec_loop]; [exact Ha|]. assert (Hc : ustr ((ch "0" + m mod 10)%N :: acc)).
      { constructor; [|exact Ha]. pose proof (N.mod_lt m 10 ltac:(discriminate)). unfold scalar. change (ch "0") with 48%N.
        replace (48 + m mod 10 <? 0xD800)%N with true by (symmetry; apply N.ltb_lt; lia). reflexivity. }
      destruct (_ <? _)%N; [exact Hc|]. apply IH. exact Hc. }
    apply H. constructor.
  Qed.
  Lemma ustr_decZ z : ustr (dec_Z z).
  Proof. destruct z; cbn [dec_Z]; try apply ustr_dec. constructor; [reflexivity|apply ustr_dec]. Qed.

  (** ** Qualifiers *)
  Ltac con := repeat (first [apply ustr_app|apply ustr_dec|apply ustr_decZ|constructor]); try reflexivity.
  Lemma single_restrict_emits s : emits (single_restrict E) s (opt (negb (no_ms_keywords E)) (kw E (L "restrict"))).
  Proof.
    unfold single_restrict, kw. destruct (no_ms_keywords E); [apply emits_ret|]. destruct (no_leading_underscores E); cbn [negb opt];
      apply emits_put; con.
  Qed.
  Lemma if_present_prints p single w sb k y : prints single w -> (forall sb, prints (k sb) (y sb)) ->
    prints (if_present E p single sb k) (if p then opt sb (L " ") ++ w ++ y true else y sb).
  Proof.
    intros Hw Hk s. unfold if_present. destruct p; [|apply Hk].
    apply emits_seq; [apply emits_if; intros _; apply (emits_put (L " ")); con|]. apply emits_seq; [apply Hw|apply Hk].
  Qed.
  Lemma quals_prints q sb : prints (out_quals E q sb false)
    (if sb then quals_after E q else quals_alone E q).
  Proof.
    intros s. unfold out_quals. destruct (N.eqb_spec q Q_None) as [->|_]; [destruct sb; apply emits_ret|].
    match goal with |- emits (fun b0 => (?m >> _) b0) s ?x => change (emits (m >> w_ret) s x) end.
    match goal with |- emits _ _ ?x => rewrite <- (app_nil_r x) end. apply emits_seq; [|apply emits_ret].
    eapply emits_eq; [|apply if_present_prints].
    2:{ intros s1. apply (emits_put (L "const")); con. }
    2:{ intros sb1. apply if_present_prints.
        - intros s1. apply (emits_put (L "volatile")); con.
        - intros sb2. apply if_present_prints; [exact single_restrict_emits|]. intros sb3 s3. apply emits_ret. }
    unfold quals_after, quals_alone, qual_words, q_is_const, q_is_volatile, q_is_restrict.
    destruct sb, (contains q Q_Const), (contains q Q_Volatile), (contains q Q_Restrict); cbn [app map concat join opt]; rewrite ?app_nil_r, <- ?app_assoc; reflexivity.
  Qed.

  (** Qualifiers with a space behind them. *)
  Lemma quals_before_prints q : prints (out_quals E q false true) (quals_before E q).
  Proof.
    intros s b Hb. pose proof (quals_prints q false s b Hb) as H. unfold out_quals in *. unfold quals_before.
    destruct (N.eqb_spec q Q_None) as [->|_].
    - left. exists b. split; [reflexivity|]. change (quals_alone E Q_None) with (@nil N). cbn [opt app]. rewrite app_nil_r. split; [exact Hb|left; reflexivity].
    - unfold w_seq in *. match type of H with context [match ?m with _ => _ end] => destruct m as [b1 [[]|e| |]] eqn:Hm end;
        cbn [andb w_if] in *; unfold w_ret in *.
      + destruct H as [(b' & Hb' & Hg & Hroom)|(b' & Hb' & _)]; [|discriminate]. injection Hb' as <-.
        assert (Hl : (length (b_bytes b) <? length (b_bytes b1)) = match quals_alone E q with [] => false | _ => true end).
        { destruct Hb as [Hb _]. destruct Hg as [Hg _]. rewrite Hb, Hg, utf8_app, app_length.
          destruct (quals_alone E q) as [|c r]; [cbn [utf8 length]; rewrite Nat.add_0_r; apply Nat.ltb_irrefl|].
          apply Nat.ltb_lt. change (utf8 (c :: r)) with (utf8_char c ++ utf8 r). rewrite app_length.
          assert (1 <= length (utf8_char c)) by (unfold utf8_char; repeat destruct (_ <? _)%N; cbn; lia). lia. }
        rewrite Hl. pose proof (emits_if (match quals_alone E q with [] => false | _ => true end) (put E (L " ")) (s ++ quals_alone E q) (L " ")
          (fun _ => emits_put (L " ") _ ltac:(con)) b1 Hg) as [(b2 & H2 & H3 & H4)|(b2 & H2 & H3)].
        * left. exists b2. split; [exact H2|]. split; [rewrite app_assoc; exact H3|]. destruct H4 as [H4|H4]; [|right; rewrite app_assoc; exact H4].
          rewrite H4, app_nil_r. exact Hroom.
        * right. exists b2. split; [exact H2|]. rewrite app_assoc. exact H3.
      + destruct H as [(b' & Hb' & _)|(b' & Hb' & Hg)]; [discriminate|]. right. exists b'. split; [exact Hb'|]. rewrite app_assoc, utf8_app, app_length. lia.
      + destruct H as [(b' & Hb' & _)|(b' & Hb' & _)]; discriminate.
      + destruct H as [(b' & Hb' & _)|(b' & Hb' & _)]; discriminate.
  Qed.

  Lemma cc_text_eq c : cc_name (no_leading_underscores E) c = cc_text E c.
  Proof. unfold cc_text, kw. destruct c, (no_leading_underscores E); reflexivity. Qed.
  Lemma ustr_cc c : ustr (cc_text E c).
  Proof. unfold cc_text, kw. destruct c, (no_leading_underscores E); con. Qed.
  Lemma cc_printc c : printc (out_cc E c) (cc_text E c).
  Proof.
    intros s Hs. unfold out_cc. change (cc_text E c) with ([] ++ cc_text E c). apply emits_seq.
    - eapply emits_eq; [|apply emits_space]. rewrite Hs. reflexivity.
    - rewrite app_nil_r, cc_text_eq. apply (emits_put (cc_text E c)). apply ustr_cc.
  Qed.
  Lemma ustr_L a : ustr (L a).
  Proof.
    unfold ustr. induction a as [|c a IH]; [constructor|]. cbn [L list_ascii_of_string map]. constructor; [|exact IH].
    destruct c as [[] [] [] [] [] [] [] []]; reflexivity.
  Qed.
  Hint Resolve ustr_L ustr_dec ustr_decZ ustr_app : ustr.
  Lemma emits_L a s : emits (put E (L a)) s (L a).
  Proof. apply emits_put. apply ustr_L. Qed.

  Section PrintNode.
    Variable w : world.
    Variable sg : store.
    Variable rec : omode -> kind -> handle -> W.
    Variable D : handle -> ty -> Prop.
    Variable S : kind -> handle -> str -> Prop.
    Variable F : handle -> fn_class -> adjustment -> option ty -> Prop.
    Hypothesis Hw : compat w sg.
    Hypothesis HD : forall h t, D h t -> printc (rec OPre KType h) (pre E t) /\ prints (rec OPost KType h) (post E t) /\
      printc (rec OFull KType h) (show E t).
    Hypothesis HDn : forall h t, D h t -> exists nd, wget w h = Some nd /\ dnode E D S (wget w) nd t.
    Hypothesis HS : forall k h x, S k h x -> printc (rec OFull k h) x.

    Lemma get_resolve k h nd : wget w h = Some nd -> hkind k nd = true -> resolve sg k h = Some nd.
    Proof. intros H Hk. unfold resolve. destruct Hw as [_ Hc]. rewrite (Hc _ _ H), Hk. reflexivity. Qed.
    Lemma dnode_type nd t : dnode E D S (wget w) nd t -> is_type nd = true.
    Proof. destruct nd; cbn; try contradiction; reflexivity. Qed.

    (** Function signatures. *)
    Definition sig_access (c : fn_class) : str :=
      show_access E (f_access c) ++ show_member_type E (f_static c) (f_virtual c) (f_externc c).
    Lemma opt_nil b : opt b [] = [].
    Proof. destruct b; reflexivity. Qed.
    Lemma calm_L s a b : (forall x, calm (x ++ L (String b a))) -> calm (s ++ L (String b a)).
    Proof. auto. Qed.
    Ltac calms := first [assumption | apply calm_app; [discriminate|reflexivity] ].

    Lemma fsig_access_emits f c s k y : calm s -> dclass (fs_class f) c -> (forall s, calm s -> emits k s y) ->
      emits (w_if (negb (no_access_specifier E) && negb (name_only E))
      (w_if (contains (fs_class f) FC_Public) (put E (L "public: ")) >>
       w_if (contains (fs_class f) FC_Protected) (put E (L "protected: ")) >>
       w_if (contains (fs_class f) FC_Private) (put E (L "private: "))) >>
      w_if (negb (no_member_type E) && negb (name_only E))
      (w_if (negb (contains (fs_class f) FC_Global) && contains (fs_class f) FC_Static) (put E (L "static ")) >>
       w_if (contains (fs_class f) FC_Virtual) (put E (L "virtual ")) >>
       w_if (contains (fs_class f) FC_ExternC) (put E (L "extern ""C"" "))) >> k) s (sig_access c ++ y).
    Proof.
      intros Hs (Hpr & Hpt & Hpu & Hst & Hvi & Hex) Hk. rewrite Hpr, Hpt, Hpu, Hst, Hvi, Hex. unfold sig_access.
      rewrite <- app_assoc. unfold show_access, show_member_type.
      assert (Hc1 : calm (s ++ opt (negb (no_access_specifier E) && negb (name_only E)) match f_access c with Some a => access_text a | None => [] end)).
      { destruct (negb (no_access_specifier E) && negb (name_only E)), (f_access c) as [[]|]; cbn [opt access_text]; rewrite ?app_nil_r; calms. }
      apply emits_seq; [|apply emits_seq].
      - apply emits_if. intros _. destruct (f_access c) as [[]|]; cbn [w_if access_text].
        + apply (emits_seq _ _ _ []); [apply emits_ret|]. apply (emits_seq _ _ _ []); [apply emits_ret|]. apply emits_L.
        + apply (emits_seq _ _ _ []); [apply emits_ret|]. apply (emits_seq _ _ _ (L "protected: ") []); [apply emits_L|apply emits_ret].
        + apply (emits_seq _ _ _ (L "public: ") []); [apply emits_L|]. apply (emits_seq _ _ _ []); apply emits_ret.
        + apply (emits_seq _ _ _ []); [apply emits_ret|]. apply (emits_seq _ _ _ []); apply emits_ret.
      - apply emits_if. intros _. apply emits_seq; [apply emits_if; intros _; apply emits_L|].
        apply emits_seq; apply emits_if; intros _; apply emits_L.
      - apply Hk. destruct (negb (no_member_type E) && negb (name_only E)), (f_static c), (f_virtual c), (f_externc c); cbn [opt app]; rewrite ?app_nil_r; calms.
    Qed.

    Lemma fsig_pre_emits f c t : dclass (fs_class f) c -> dsig E D S f t ->
      printc (fsig_pre E rec f false) (sig_access c ++ pre E t).
    Proof.
      intros Hc Ht s Hs. unfold fsig_pre. apply fsig_access_emits; [exact Hs|exact Hc|]. clear s Hs. intros s Hs.
      destruct t as [| | | |q cc rq r ps v ne|]; cbn in Ht; try contradiction. destruct Ht as (_ & Hcc & _ & _ & _ & Hr & Hp). rewrite ?Hcc. clear Hcc.
      cbn [pre orb negb andb]. 
      set (x1 := match r with Some _ => _ | None => [] end).
      assert (Hx1 : emits (w_if (negb (no_return_type E) && negb (name_only E)) (w_opt (fs_ret f) (fun h => rec OPre KType h >> put E (L " ")))) s x1 /\ calm (s ++ x1)).
      { unfold x1. destruct (fs_ret f) as [h|], r as [rt|]; cbn in Hr; try contradiction; cbn [w_opt].
        - split.
          + apply emits_if. intros _. apply emits_seq; [apply HD; assumption|apply emits_L].
          + apply calm_opt; [exact Hs|]. apply (calm_end s (pre E rt)); reflexivity.
        - rewrite app_nil_r. split; [|exact Hs]. apply emits_ifr. }
      destruct Hx1 as [H1 H2]. apply emits_seq; [exact H1|]. destruct cc as [c0|]; cbn [w_opt].
      - unfold show_cc. apply emits_if. intros _. apply cc_printc. exact H2.
      - apply emits_ifr.
    Qed.
    Lemma global_class : dclass FC_Global (FnClass None false false false).
    Proof. repeat split. Qed.
    Lemma sig_access_none : sig_access (FnClass None false false false) = [].
    Proof. unfold sig_access, show_access, show_member_type. cbn. rewrite !opt_nil. reflexivity. Qed.
    Lemma fsig_pre_ptr f t : fs_class f = FC_Global -> dsig E D S f t ->
      printc (fsig_pre E rec f true) (match t with TFun _ _ _ (Some r) _ _ _ => opt (negb (no_return_type E)) (pre E r ++ L " ") | _ => [] end).
    Proof.
      intros Hc Ht s Hs. unfold fsig_pre.
      match goal with |- emits _ _ ?x => apply (emits_eq _ _ (sig_access (FnClass None false false false) ++ x)); [rewrite sig_access_none; reflexivity|] end.
      apply fsig_access_emits; [exact Hs|rewrite Hc; apply global_class|]. clear s Hs. intros s Hs.
      destruct t as [| | | |q cc rq r ps v ne|]; cbn in Ht; try contradiction. destruct Ht as (_ & Hcc & _ & _ & _ & Hr & Hp). rewrite ?Hcc. clear Hcc.
      cbn [orb negb andb]. rewrite andb_true_r.
      match goal with |- emits _ _ ?x => rewrite <- (app_nil_r x) end. apply emits_seq; [|apply emits_ret].
      destruct (fs_ret f) as [h|], r as [rt|]; cbn in Hr; try contradiction; cbn [w_opt].
      - apply emits_if. intros _. apply emits_seq; [apply HD; assumption|apply emits_L].
      - apply emits_ifr.
    Qed.

    Lemma params_emits f ps v s : opt_rel (fun h l => S KNodes h (join (L ", ") (map (show E) l))) (fs_params f) ps -> fs_variadic f = v ->
      emits (put E (L "(") >>
       match fs_params f with
       | Some h => rec OFull KNodes h
       | None => put E (L "void")
       end >>
       w_if (fs_variadic f)
         ((fun b => match last_char b with
                    | Some c => w_if (negb (c =? ch "(")%N) (put E (L ", ")) b
                    | None => w_ret b
                    end) >>
          put E (L "...")) >>
       put E (L ")")) s (params_text (match ps with Some l => Some (map (fun t => pre E t ++ post E t) l) | None => None end) v).
    Proof.
      intros Hp Hv. unfold params_text. cbv zeta. set (body := match match ps with Some _ => _ | None => _ end with Some _ => _ | None => _ end).
      apply emits_seq; [apply emits_L|]. apply emits_seq; [|apply emits_seq; [|apply emits_L]].
      - unfold body. destruct (fs_params f) as [h|], ps as [l|]; cbn in Hp; try contradiction.
        + apply HS; [exact Hp|calms].
        + apply emits_L.
      - rewrite Hv. apply emits_if. intros _. apply emits_seq; [|apply emits_L].
        rewrite <- app_assoc. intros b Hb. rewrite (last_good b _ Hb). rewrite rev_app_distr.
        assert (Hne : rev (L "(" ++ body) <> []).
        { intros He. apply (f_equal (@length N)) in He. rewrite rev_length in He. discriminate. }
        destruct (rev (L "(" ++ body)) as [|c r] eqn:Hr; [congruence|]. cbn [app].
        revert b Hb. change (emits (w_if (negb (c =? ch "(")%N) (put E (L ", "))) (s ++ L "(" ++ body) (opt (negb (c =? ch "(")%N) (L ", "))).
        apply emits_if. intros _. apply emits_L.
    Qed.
    Lemma fsig_post_emits f t p : contains (fs_class f) FC_NoParameterList = false -> dsig E D S f t ->
      prints (fsig_post E rec f p) (match t with
        | TFun q _ rq ret ps v ne =>
          opt (p || negb (name_only E)) (params_text (match ps with Some l => Some (map (fun t => pre E t ++ post E t) l) | None => None end) v) ++
          fn_tail E q ne rq ++
          match ret with Some r => opt (negb (no_return_type E) && negb (name_only E)) (post E r) | None => [] end
        | _ => [] end).
    Proof.
      intros Hn Ht s. destruct t as [| | | |q cc rq r ps v ne|]; cbn in Ht; try contradiction. destruct Ht as (Hq & Hcc & Hrq & Hv & Hne & Hr & Hp).
      unfold fsig_post. rewrite Hn. cbn [negb]. rewrite andb_true_r.
      apply emits_seq; [apply emits_if; intros _; apply params_emits; assumption|].
      unfold fn_tail. cbv zeta. rewrite <- !app_assoc. rewrite Hq, Hne, Hrq. unfold q_is_const, q_is_volatile, q_is_restrict, q_is_unaligned.
      apply emits_seq.
      { apply emits_if. intros _. apply emits_seq; [apply emits_if; intros _; apply emits_L|].
        apply emits_seq; [apply emits_if; intros _; apply emits_L|]. apply emits_if. intros _. unfold kw.
        apply emits_seq; apply emits_if; intros _; destruct (no_leading_underscores E); apply emits_put; con. }
      apply emits_seq; [apply emits_if; intros _; apply emits_L|].
      apply emits_seq.
      { apply emits_if. intros _. destruct rq as [[]|]; [apply emits_L|apply emits_L|apply emits_ret]. }
      destruct (fs_ret f) as [h|], r as [rt|]; cbn in Hr; try contradiction; cbn [w_opt].
      - apply emits_if. intros _. apply HD. assumption.
      - apply emits_ifr.
    Qed.
    Lemma fsig_post_none f p : contains (fs_class f) FC_NoParameterList = true -> fs_quals f = Q_None -> fs_ref f = None ->
      fs_noexcept f = false -> fs_ret f = None -> prints (fsig_post E rec f p) [].
    Proof.
      intros Hn Hq Hr Hne Hret s. unfold fsig_post. rewrite Hn, Hq, Hr, Hne, Hret. cbn [negb]. rewrite andb_false_r.
      apply (emits_seq _ _ _ []); [apply emits_ret|]. cbn [w_if w_opt].
      apply (emits_seq _ _ _ []).
      { destruct (_ && _); [|apply emits_ret]. cbn [w_if].
        apply (emits_seq _ _ _ []); [apply emits_ret|]. apply (emits_seq _ _ _ []); [apply emits_ret|].
        destruct (negb _); [|apply emits_ret]. apply (emits_seq _ _ _ []); apply emits_ret. }
      apply (emits_seq _ _ _ []); [apply emits_ret|]. apply (emits_seq _ _ _ []); apply emits_ifr.
    Qed.
    Lemma post_fun q cc rq r ps v ne : post E (TFun q cc rq r ps v ne) =
      opt (negb (name_only E)) (params_text (match ps with Some l => Some (map (fun t => pre E t ++ post E t) l) | None => None end) v) ++
          fn_tail E q ne rq ++
          match r with Some r => opt (negb (no_return_type E) && negb (name_only E)) (post E r) | None => [] end.
    Proof. reflexivity. Qed.

    (** Types. *)
    Lemma ptr_pre_emits q a c c' p pt : opt_rel (fun h name => S KQual h (qualified name)) c c' -> D p pt ->
      printc (ptr_pre E sg rec q (Some a) c p) (pre E (TPtr q a c' pt)).
    Proof.
      intros Hc Hp s Hs. destruct (HDn _ _ Hp) as (nd & Hg & Hn). unfold ptr_pre. rewrite (get_resolve KType p nd Hg (dnode_type _ _ Hn)).
      cbn [pre].
      apply emits_sp; [exact Hs| |].
      { destruct nd; cbn in Hn; try contradiction; cbn [is_sig sig_pre].
        - subst pt. apply (HD _ _ Hp); exact Hs.
        - destruct Hn as [Hcl Hsig]. pose proof (fsig_pre_ptr f pt Hcl Hsig s Hs) as H. destruct pt as [| | | |? ? ? r ? ? ?|]; cbn in Hsig; try contradiction.
          destruct r; exact H.
        - destruct Hn as (? & ? & ? & ? & -> & ?). apply (HD _ _ Hp); exact Hs.
        - destruct Hn as (? & -> & ?). apply (HD _ _ Hp); exact Hs.
        - destruct Hn as (? & ? & -> & ?). apply (HD _ _ Hp); exact Hs.
        - destruct Hn as (? & -> & ?). apply (HD _ _ Hp); exact Hs. }
      set (x1 := sp E _). assert (Hs1 : calm (s ++ x1)) by (apply calm_app2; [exact Hs|apply sp_calm]). generalize dependent (s ++ x1). clear s Hs x1. intros s Hs.
      set (x2 := opt _ (kw E (L "unaligned") ++ L " ")).
      assert (Hs2 : calm (s ++ x2)).
      { unfold x2. apply calm_opt; [exact Hs|]. apply (calm_end s (kw E (L "unaligned"))); reflexivity. }
      apply emits_seq.
      { unfold x2, q_is_unaligned, kw. apply emits_if. intros _. destruct (no_leading_underscores E); apply emits_put; con. }
      generalize dependent (s ++ x2). clear s Hs x2. intros s Hs.
      match goal with |- emits _ _ (?x ++ _) => set (x3 := x) end.
      assert (H3 : emits (if is_arr nd then put E (L "(") else if is_sig nd then put E (L "(") >>
         w_if (negb (no_calling_convention E) && negb (no_ms_keywords E))
           (w_opt (sig_cc nd) (fun c => out_cc E c >> put E (L " "))) else w_ret) s x3 /\ calm (s ++ x3)).
      { unfold x3. destruct nd; cbn in Hn; try contradiction; cbn [is_arr is_sig sig_cc].
        - subst pt. split; [apply emits_ret|rewrite app_nil_r; exact Hs].
        - destruct Hn as [_ Hsig]. destruct pt as [| | | |q0 cc rq r ps v ne|]; cbn in Hsig; try contradiction. destruct Hsig as (_ & -> & _).
          assert (Hp1 : forall z, calm (z ++ L "(")) by (intros z; calms).
          split.
          + apply emits_seq; [apply emits_L|]. destruct cc as [c0|]; cbn [w_opt].
            * apply emits_if. intros _. apply emits_seq; [apply cc_printc; apply Hp1|apply emits_L].
            * apply emits_ifr.
          + rewrite app_assoc. destruct cc as [c0|]; [|rewrite app_nil_r; apply Hp1].
            apply calm_opt; [apply Hp1|]. apply calm_end; reflexivity.
        - destruct Hn as (? & ? & ? & ? & -> & ?). split; [apply emits_ret|rewrite app_nil_r; exact Hs].
        - destruct Hn as (? & -> & ?). split; [apply emits_ret|rewrite app_nil_r; exact Hs].
        - destruct Hn as (? & ? & -> & ?). split; [apply emits_L|calms].
        - destruct Hn as (? & -> & ?). split; [apply emits_ret|rewrite app_nil_r; exact Hs]. }
      destruct H3 as [H3 Hs3]. apply emits_seq; [exact H3|]. generalize dependent (s ++ x3). clear s Hs x3 H3. intros s Hs.
      apply emits_seq.
      { destruct c as [h|], c' as [n'|]; cbn in Hc; try contradiction; cbn [w_opt]; [|apply emits_ret].
        apply emits_seq; [apply HS; assumption|apply emits_L]. }
      apply emits_seq.
      { destruct a; apply emits_L. }
      apply (quals_prints q false).
    Qed.
    Lemma ptr_post_emits q a c p pt : D p pt -> prints (ptr_post E sg rec p) (post E (TPtr q a c pt)).
    Proof.
      intros Hp s. destruct (HDn _ _ Hp) as (nd & Hg & Hn). unfold ptr_post. rewrite (get_resolve KType p nd Hg (dnode_type _ _ Hn)).
      assert (Hplain : is_arr nd || is_sig nd = false -> (forall q0 d e, pt <> TArr q0 d e) -> (forall a b c d e f g, pt <> TFun a b c d e f g) ->
        emits (w_if (is_arr nd || is_sig nd) (put E (L ")")) >> (if is_sig nd then sig_post E rec nd true else rec OPost KType p)) s (post E (TPtr q a c pt))).
      { intros Hf Ha Hfn. rewrite Hf. apply orb_false_iff in Hf. destruct Hf as [_ ->]. cbn [w_if].
        assert (He : post E (TPtr q a c pt) = post E pt).
        { destruct pt; try reflexivity; [destruct (Ha _ _ _ eq_refl)|destruct (Hfn _ _ _ _ _ _ _ eq_refl)]. }
        rewrite He. apply (emits_seq _ _ _ []); [apply emits_ret|]. apply HD. exact Hp. }
      destruct nd; cbn in Hn; try contradiction.
      - subst pt. apply Hplain; [reflexivity|discriminate|discriminate].
      - destruct Hn as [Hcl Hsig]. destruct pt as [| | | |q0 cc rq r ps v ne|]; try (cbn in Hsig; contradiction). cbn [is_arr is_sig orb w_if sig_post].
        cbn [post]. apply emits_seq; [apply emits_L|]. pose proof (fsig_post_emits f (TFun q0 cc rq r ps v ne) true ltac:(rewrite Hcl; reflexivity) Hsig (s ++ L ")")) as H. exact H.
      - destruct Hn as (? & ? & ? & ? & -> & ?). apply Hplain; [reflexivity|discriminate|discriminate].
      - destruct Hn as (? & -> & ?). apply Hplain; [reflexivity|discriminate|discriminate].
      - destruct Hn as (ds & et & -> & ?). cbn [is_arr orb w_if is_sig]. change (post E (TPtr q a c (TArr q0 ds et))) with (L ")" ++ post E (TArr q0 ds et)).
        apply emits_seq; [apply emits_L|]. apply HD. exact Hp.
      - destruct Hn as (? & -> & ?). apply Hplain; [reflexivity|discriminate|discriminate].
    Qed.
    Lemma dims_prints l ds : Forall2 (fun h v => wget w h = Some (NInt v false)) l ds -> forall d, wget w d = Some (NNodes l) ->
      prints (out_dims E sg d) (join (L "][") (map dim_text ds)).
    Proof.
      intros Hf d Hd s. unfold out_dims. rewrite (get_resolve KNodes d _ Hd eq_refl).
      assert (H1 : forall h v, wget w h = Some (NInt v false) -> prints (one_dim E sg h) (dim_text v)).
      { intros h v Hh s1. unfold one_dim. rewrite (get_resolve KAny h _ Hh eq_refl). unfold dim_text. destruct (v =? 0)%N; [apply emits_ret|].
        unfold int_out. apply emits_put. apply (ustr_dec v). }
      assert (H2 : forall l ds, Forall2 (fun h v => wget w h = Some (NInt v false)) l ds -> forall x s, 
        emits (rest_dims E sg l) s (concat (map (fun v => L "][" ++ dim_text v) ds)) /\ join (L "][") (x :: map dim_text ds) = x ++ concat (map (fun v => L "][" ++ dim_text v) ds)).
      { clear l ds Hf Hd s. induction 1 as [|h v l ds Hh Hf IH]; intros x s; [split; [apply emits_ret|cbn; rewrite app_nil_r; reflexivity]|].
        cbn [rest_dims map concat]. split.
        - rewrite <- app_assoc. apply emits_seq; [apply emits_L|]. apply emits_seq; [apply H1; exact Hh|]. apply (IH []).
        - destruct (IH (dim_text v) s) as [_ IHe]. change (join (L "][") (x :: dim_text v :: map dim_text ds)) with (x ++ L "][" ++ join (L "][") (dim_text v :: map dim_text ds)).
          rewrite IHe, <- app_assoc. reflexivity. }
      destruct Hf as [|h v l ds Hh Hf]; [apply emits_ret|]. cbn [map]. destruct (H2 l ds Hf (dim_text v) (s ++ dim_text v)) as [Ha ->].
      apply emits_seq; [apply H1; exact Hh|exact Ha].
    Qed.
    Lemma prim_text_eq k : prim_name k = prim_text k.
    Proof. destruct k; reflexivity. Qed.
    Lemma type_emits nd t : dnode E D S (wget w) nd t ->
      printc (out_pre E sg rec nd) (pre E t) /\ prints (out_post E sg rec nd) (post E t) /\ printc (out_full E sg rec nd) (show E t).
    Proof.
      intros Hn.
      assert (H : printc (out_pre E sg rec nd) (pre E t) /\ prints (out_post E sg rec nd) (post E t)).
      { destruct nd; cbn in Hn; try contradiction.
        - subst t. split; [|intros s; apply emits_ret]. intros s Hs. cbn [out_pre pre]. apply emits_seq; [|apply (quals_prints q true)].
          rewrite prim_text_eq. apply emits_put. destruct k; apply ustr_L.
        - destruct Hn as [Hcl Hsig]. split.
          + intros s Hs. cbn [out_pre]. match goal with |- emits _ _ ?x => apply (emits_eq _ _ (sig_access (FnClass None false false false) ++ x)); [rewrite sig_access_none; reflexivity|] end. apply fsig_pre_emits; [rewrite Hcl; apply global_class|exact Hsig|exact Hs].
          + intros s. cbn [out_post]. pose proof (fsig_post_emits f t false ltac:(rewrite Hcl; reflexivity) Hsig s) as H.
            destruct t; cbn in Hsig; try contradiction. exact H.
        - destruct Hn as (a' & c' & pt & -> & -> & Hc & Hp). split; [apply ptr_pre_emits; assumption|apply ptr_post_emits; assumption].
        - destruct Hn as (name & -> & Hq). split; [|intros s; apply emits_ret]. intros s Hs. cbn [out_pre pre].
          apply emits_seq; [apply emits_if; intros _; apply emits_put; destruct t0; con|].
          apply emits_seq; [apply HS; [exact Hq|]|apply (quals_prints q true)].
          apply calm_opt; [exact Hs|]. apply (calm_end s (tag_text t0)); reflexivity.
        - destruct Hn as (ds & et & -> & He & l & Hl & Hf). split.
          + intros s Hs. cbn [out_pre pre]. apply emits_seq; [apply HD; assumption|apply (quals_prints q true)].
          + intros s. cbn [out_post post]. apply emits_seq; [apply emits_L|]. apply emits_seq; [eapply dims_prints; eassumption|].
            apply emits_seq; [apply emits_L|]. apply HD. exact He.
        - destruct Hn as (x & -> & Hi). split; [|intros s; apply emits_ret]. intros s Hs. cbn [out_pre pre]. apply HS; assumption. }
      destruct H as [H1 H2]. split; [exact H1|]. split; [exact H2|]. intros s Hs.
      assert (He : out_full E sg rec nd = (out_pre E sg rec nd >> out_post E sg rec nd)) by (destruct nd; cbn in Hn; try contradiction; reflexivity).
      rewrite He. apply emits_seq; [apply H1; exact Hs|apply H2].
    Qed.

    (** Everything else. *)
    Definition fn_pre (c : fn_class) (a : adjustment) (sig : option ty) : str :=
      opt (is_thunk a && negb (name_only E)) (L "[thunk]: ") ++
          show_access E (f_access c) ++ show_member_type E (f_static c) (f_virtual c) (f_externc c) ++
          match sig with Some t => pre E t | None => untyped_pre E a end.
    Definition fn_post (a : adjustment) (sig : option ty) : str :=
      adjustment_text a ++ match sig with Some t => post E t | None => [] end.
    Hypothesis HF : forall h c a sig, F h c a sig -> printc (rec OPre KSig h) (fn_pre c a sig) /\ prints (rec OPost KSig h) (fn_post a sig).

    Lemma tp_prints tp y : dtp S tp y -> prints (out_tp E rec tp) y.
    Proof.
      intros H s. destruct tp as [h|]; cbn [dtp out_tp w_opt] in *; [|subst y; apply emits_ret]. destruct H as (z & Hz & ->). unfold out_tp. cbn [w_opt].
      apply emits_seq; [apply emits_L|]. apply emits_seq; [apply HS; [exact Hz|calms]|apply emits_L].
    Qed.
    Lemma nodes_printc sep l xs : sep = L ", " \/ sep = L "::" -> Forall2 (S KAny) l xs -> printc (out_nodes E rec sep l) (join sep xs).
    Proof.
      intros Hsep Hf s Hs.
      assert (Hc : forall z, calm (z ++ sep)) by (intros z; destruct Hsep; subst sep; calms).
      assert (Hu : ustr sep) by (destruct Hsep; subst sep; apply ustr_L).
      assert (H : forall l xs, Forall2 (S KAny) l xs -> forall x s,
        emits (rest_nodes E rec sep l) s (concat (map (fun v => sep ++ v) xs)) /\ join sep (x :: xs) = x ++ concat (map (fun v => sep ++ v) xs)).
      { clear l xs Hf s Hs. induction 1 as [|h v l ds Hh Hf IH]; intros x s; [split; [apply emits_ret|cbn; rewrite app_nil_r; reflexivity]|].
        cbn [rest_nodes map concat]. split.
        - rewrite <- app_assoc. apply emits_seq; [apply emits_put; exact Hu|]. apply emits_seq; [apply HS; [exact Hh|apply Hc]|]. apply (IH []).
        - destruct (IH v s) as [_ IHe]. change (join sep (x :: v :: ds)) with (x ++ sep ++ join sep (v :: ds)).
          rewrite IHe, <- app_assoc. reflexivity. }
      destruct Hf as [|h v l ds Hh Hf]; [apply emits_ret|]. destruct (H l ds Hf v (s ++ v)) as [Ha ->].
      cbn [out_nodes]. apply emits_seq; [apply HS; assumption|exact Ha].
    Qed.
    Lemma offs_prints z zs : prints (put E (dec_Z z) >> fold_right (fun z k => put E (L ", " ++ dec_Z z) >> k) (put E (L "}")) zs)
      (join (L ", ") (map dec_Z (z :: zs)) ++ L "}").
    Proof.
      assert (H : forall zs x s, emits (fold_right (fun z k => put E (L ", " ++ dec_Z z) >> k) (put E (L "}")) zs) s
          (concat (map (fun v => L ", " ++ dec_Z v) zs) ++ L "}") /\
        join (L ", ") (x :: map dec_Z zs) = x ++ concat (map (fun v => L ", " ++ dec_Z v) zs)).
      { clear z zs. induction zs as [|v zs IH]; intros x s; [split; [apply emits_L|cbn; rewrite app_nil_r; reflexivity]|].
        cbn [fold_right map concat]. split.
        - rewrite <- app_assoc. apply emits_seq; [apply emits_put; apply ustr_app; [apply ustr_L|apply ustr_decZ]|]. apply (IH []).
        - destruct (IH (dec_Z v) s) as [_ IHe]. change (join (L ", ") (x :: dec_Z v :: map dec_Z zs)) with (x ++ L ", " ++ join (L ", ") (dec_Z v :: map dec_Z zs)).
          rewrite IHe, <- app_assoc. reflexivity. }
      intros s. cbn [map]. destruct (H zs (dec_Z z) (s ++ dec_Z z)) as [Ha ->]. rewrite <- app_assoc.
      apply emits_seq; [apply emits_put, ustr_decZ|exact Ha].
    Qed.
    Lemma ustr_ifk o : ustr (ifk_name o).
    Proof. destruct o; apply ustr_L. Qed.
    Lemma show_emits nd x : dshow E D S F (wget w) nd x -> printc (out_full E sg rec nd) x.
    Proof.
      intros Hd.
      assert (Hty : (exists t, dnode E D S (wget w) nd t /\ x = show E t) -> printc (out_full E sg rec nd) x).
      { intros (t & Ht & ->). apply type_emits. exact Ht. }
      destruct nd; try (apply Hty; exact Hd); try contradiction; try rename s into lit; intros s Hs; cbn [dshow] in Hd; cbn [out_full].
      - subst x. unfold vcall_text. destruct (name_only E); apply emits_put; repeat apply ustr_app; first [apply ustr_L|apply ustr_dec].
      - assert (Hd' : exists (k : bool) (h : handle) y, id = (if k then DVariable h else DName h) /\ S (if k then KVar else KQual) h y /\ x = dynamic_text dtor k y).
        { destruct id as [h|h]; destruct Hd as (y & Hy & ->); [exists true, h, y|exists false, h, y]; auto. }
        clear Hd. destruct Hd' as (k & h & y & -> & Hy & ->). unfold dynamic_text.
        apply emits_seq; [destruct dtor; apply emits_L|]. destruct k; (apply emits_seq; [apply emits_L|]); (apply emits_seq; [apply HS; [exact Hy|calms]|apply emits_L]).
      - destruct Hd as (Hu & y & Hy & ->). apply emits_seq; [apply emits_put; exact Hu|apply tp_prints; exact Hy].
      - destruct op as [op|]; [|apply (emits_seq _ _ _ []); [apply emits_ret|apply tp_prints; exact Hd]]. destruct Hd as (y & Hy & ->). cbn [w_opt].
        apply emits_seq; [apply emits_put; apply ustr_ifk|apply tp_prints; exact Hy].
      - destruct Hd as (Hu & y & Hy & ->). apply emits_seq; [apply emits_put; apply ustr_app; [apply ustr_L|exact Hu]|apply tp_prints; exact Hy].
      - subst x. unfold guard_text. apply emits_seq; [destruct thread; apply emits_L|]. apply emits_if. intros _. apply emits_put.
        repeat apply ustr_app; first [apply ustr_L|apply ustr_dec].
      - destruct target as [r|]; [|contradiction]. destruct Hd as (y & t & Hy & Ht & ->). cbn [w_opt].
        apply emits_seq; [apply emits_L|]. apply emits_seq; [apply tp_prints; exact Hy|]. apply emits_seq; [apply emits_L|].
        apply HD; [exact Ht|calms].
      - destruct cls as [c|]; [|contradiction]. destruct Hd as (y & z & Hy & Hz & ->). cbn [w_opt].
        apply emits_seq; [apply emits_if; intros _; apply emits_L|]. apply emits_seq; [|apply tp_prints; exact Hy].
        apply HS; [exact Hz|]. destruct dtor; cbn [opt]; rewrite ?app_nil_r; calms.
      - subst x. unfold base_descriptor_text. apply emits_put. repeat apply ustr_app; first [apply ustr_L|apply ustr_decZ|apply ustr_dec].
      - destruct Hd as (xs & Hxs & ->). apply nodes_printc; auto.
      - destruct Hd as (l & xs & Hl & Hxs & ->). rewrite (get_resolve KNodes _ _ Hl eq_refl). apply nodes_printc; auto.
      - unfold tpr_out. destruct sym as [h|], offs as [|z zs]; try contradiction.
        + assert (Hend : forall pfx x, S KSym h x -> (forall s, emits (w_if (is_ptr_aff a) (put E (L "&"))) s pfx) -> calm (s ++ pfx) ->
            emits (w_if (is_ptr_aff a) (put E (L "&")) >> w_opt (Some h) (fun h => rec OFull KSym h >> w_if (negb true) (put E (L ", "))) >> w_ret) s (pfx ++ x)).
          { intros pfx y Hy Hp Hc. apply emits_seq; [apply Hp|]. match goal with |- emits _ _ ?v => rewrite <- (app_nil_r v) end. apply emits_seq; [|apply emits_ret].
            cbn [w_opt negb w_if]. match goal with |- emits _ _ ?v => rewrite <- (app_nil_r v) end. apply emits_seq; [|apply emits_ret]. apply HS; assumption. }
          destruct a as [[]|]; try contradiction.
          * destruct Hd as (y & Hy & ->). apply Hend; [exact Hy|intros; apply emits_L|calms].
          * apply (Hend []); [exact Hd|intros; apply emits_ret|rewrite app_nil_r; exact Hs].
        + destruct Hd as (y & Hy & ->). apply emits_seq; [apply emits_L|]. cbn [w_opt negb w_if].
          rewrite app_assoc. apply emits_seq; [|apply offs_prints]. apply emits_seq; [apply HS; [exact Hy|calms]|apply emits_L].
        + destruct a as [[]|]; try contradiction. subst x. cbn [w_opt is_ptr_aff w_if].
          change (L "&") with (L "&" ++ []) at 2. apply emits_seq; [apply emits_L|]. apply (emits_seq _ _ _ []); apply emits_ret.
        + subst x. apply emits_seq; [apply emits_L|]. cbn [w_opt]. apply (emits_seq _ _ _ []); [apply emits_ret|]. apply offs_prints.
      - subst x. unfold int_out. apply emits_put. destruct neg; apply ustr_app; first [apply ustr_L|apply ustr_dec|constructor].
      - apply HS; assumption.
      - destruct Hd as (y & tn & Hy & Htn & ->). unfold show_table. apply emits_seq; [apply emits_if; intros _; apply quals_before_prints|].
        assert (Hc1 : calm (s ++ opt (negb (name_only E)) (quals_before E q))).
        { apply calm_opt; [exact Hs|]. unfold quals_before. destruct (quals_alone E q) as [|c0 r0]; cbn [opt app]; [rewrite app_nil_r; exact Hs|].
          apply (calm_end s (c0 :: r0)); reflexivity. }
        apply emits_seq; [apply HS; assumption|]. destruct target as [h|], tn as [tn|]; cbn in Htn; try contradiction; cbn [w_opt]; [|apply emits_ret].
        apply emits_seq; [apply emits_L|]. apply emits_seq; [apply HS; [exact Htn|calms]|apply emits_L].
      - apply HS; assumption.
      - destruct Hd as [Hu ->]. unfold strlit_out. apply emits_put. repeat apply ustr_app; try exact Hu; try apply ustr_L; [destruct k; apply ustr_L|destruct trunc; [apply ustr_L|constructor]].
      - assert (Hvq : forall (h t : handle), name = Some (VQualified h) -> ty = Some t -> exists a t' y, daccess sc a /\ D t t' /\ S KQual h y /\ x = show_variable E a t' y).
        { intros h t -> ->. destruct sc; exact Hd. }
        destruct name as [[h|]|]; [|destruct sc as [sc|], ty as [t|]; try contradiction|destruct sc as [sc|], ty as [t|]; contradiction].
        2:{ destruct Hd as (y & Ht & ->). destruct (HD _ _ Ht) as (_ & _ & H3). unfold var_out, show_type_name.
            apply (emits_seq _ _ _ []); [apply emits_ifr|]. rewrite app_nil_r. apply (emits_seq _ _ _ []); [rewrite andb_false_r; apply emits_ret|]. rewrite app_nil_r. cbn [w_opt].
            destruct (name_only E); cbn [negb w_if].
            - rewrite <- (app_nil_r (show E y)). apply emits_seq; [apply H3; exact Hs|apply emits_ret].
            - apply emits_sp; [exact Hs|apply H3; exact Hs|apply emits_L]. }
        destruct ty as [t|].
        2:{ destruct sc as [sc|]; [contradiction|]. unfold var_out.
            apply (emits_seq _ _ _ []); [apply emits_ifr|]. rewrite app_nil_r. apply (emits_seq _ _ _ []); [rewrite andb_false_r; apply emits_ret|]. rewrite app_nil_r.
            destruct (negb (no_variable_type E) && negb (name_only E)); cbn [w_opt]; (apply (emits_seq _ _ _ []); [apply emits_ret|]); rewrite app_nil_r;
              rewrite <- (app_nil_r x); (apply emits_seq; [apply HS; assumption|apply emits_ret]). }
        destruct (Hvq h t eq_refl eq_refl) as (a & y & z & Ha & Ht & Hz & ->). clear Hvq Hd.
        unfold var_out, show_variable.
        assert (Hsc : exists b st, (match sc with Some PrivateStatic => (Some (L "private"), true) | Some PublicStatic => (Some (L "public"), true)
            | Some ProtectedStatic => (Some (L "protected"), true) | _ => (None, false) end) = (b, st) /\
            (match a with Some a => access_text a | None => [] end) = (match b with Some b => b ++ L ": " | None => [] end) /\
            (match a with Some _ => true | None => false end) = st /\ match b with Some b => ustr b | None => True end).
        { destruct sc as [[]|], a as [[]|]; cbn in Ha; try contradiction; eexists; eexists; (split; [reflexivity|]); repeat split; apply ustr_L. }
        destruct Hsc as (b & st & -> & Ha1 & -> & Hub). unfold show_access, show_member_type. rewrite Ha1. cbn [opt app]. rewrite app_nil_r.
        set (x1 := opt _ (match b with Some _ => _ | None => _ end)).
        assert (Hc1 : calm (s ++ x1)).
        { unfold x1. apply calm_opt; [exact Hs|]. destruct b as [b|]; [|rewrite app_nil_r; exact Hs]. 
          change (b ++ L ": ") with (b ++ (L ":" ++ [ch " "])). rewrite (app_assoc b). apply calm_end; reflexivity. }
        apply emits_seq.
        { unfold x1. apply emits_if. intros _. destruct b as [b|]; cbn [w_opt]; [|apply emits_ret]. apply emits_put. apply ustr_app; [exact Hub|apply ustr_L]. }
        generalize dependent (s ++ x1). clear s Hs x1. intros s Hs.
        set (x2 := opt _ (opt st _)).
        assert (Hc2 : calm (s ++ x2)).
        { unfold x2. apply calm_opt; [exact Hs|]. destruct st; cbn [opt]; [calms|rewrite app_nil_r; exact Hs]. }
        apply emits_seq.
        { unfold x2. destruct (negb (no_member_type E) && negb (name_only E)); cbn [andb opt]; [|apply emits_ret]. apply emits_if. intros _. apply emits_L. }
        generalize dependent (s ++ x2). clear s Hs x2. intros s Hs.
        destruct (negb (no_variable_type E) && negb (name_only E)); cbn [w_opt].
        + destruct (HD _ _ Ht) as (H1 & H2 & _). intros b0 Hb0.
          assert (Hassoc : forall m k j : W, ((m >> k) >> j) b0 = (m >> k >> j) b0).
          { intros m k j. unfold w_seq. destruct (m b0) as [b1 [[]| | |]]; reflexivity. }
          rewrite Hassoc. revert b0 Hb0 Hassoc.
          assert (Hem : emits (rec OPre KType t >> space_if_necessary E >> rec OFull KQual h >> rec OPost KType t) s (sp E (pre E y) ++ z ++ post E y)).
          { apply emits_sp; [exact Hs|apply H1; exact Hs|]. apply emits_seq; [|apply H2]. apply HS; [exact Hz|]. apply calm_app2; [exact Hs|apply sp_calm]. }
          intros b0 Hb0 _. apply Hem. exact Hb0.
        + apply (emits_seq _ _ _ []); [apply emits_ret|]. rewrite app_nil_r. rewrite <- (app_nil_r z) at 1. apply emits_seq; [|apply emits_ret]. apply HS; assumption.
      - destruct name as [h|]; [|contradiction]. destruct Hd as (c & a & sig0 & y & Hf & Hy & ->). destruct (HF _ _ _ _ Hf) as [H1 H2].
        change (show_function E c a sig0 y) with (sp E (fn_pre c a sig0) ++ y ++ fn_post a sig0). cbn [w_opt].
        apply emits_sp; [exact Hs|apply H1; exact Hs|]. apply emits_seq; [|apply H2]. apply HS; [exact Hy|]. apply calm_app2; [exact Hs|apply sp_calm].
    Qed.
    Lemma thunk_adj_emits fc ta a : dadj fc ta a -> prints (if contains fc FC_StaticThisAdjust then
       put E (L "`adjustor{" ++ dec_N (ta_static ta) ++ L "}'")
     else if contains fc FC_VirtualThisAdjust then
       if contains fc FC_VirtualThisAdjustEx then
         put E (L "`vtordispex{" ++ dec_Z (ta_vbptr ta) ++ L ", " ++ dec_Z (ta_vboffset ta) ++ L ", "
                ++ dec_Z (ta_vtordisp ta) ++ L ", " ++ dec_N (ta_static ta) ++ L "}'")
       else
         put E (L "`vtordisp{" ++ dec_Z (ta_vtordisp ta) ++ L ", " ++ dec_N (ta_static ta) ++ L "}'")
     else w_ret) (adjustment_text a).
    Proof.
      intros H s. destruct a; cbn [dadj] in H; [contradiction| | | |].
      - destruct H as [-> ->]. apply emits_put. con.
      - destruct H as (-> & -> & -> & -> & ->). apply emits_put. con.
      - destruct H as (-> & -> & -> & -> & -> & -> & ->). apply emits_put. con.
      - destruct H as (-> & ->). apply emits_ret.
    Qed.
    Lemma fun_emits nd c a sig : dfun E D S nd c a sig ->
      is_sig nd = true /\ printc (out_pre E sg rec nd) (fn_pre c a sig) /\ prints (out_post E sg rec nd) (fn_post a sig).
    Proof.
      intros (f & Hc & Ha & Hsig).
      assert (Hpre : printc (fsig_pre E rec f false) (sig_access c ++ match sig with Some t => pre E t | None => untyped_pre E a end)).
      { destruct sig as [t|]; [apply fsig_pre_emits; [exact Hc|apply Hsig]|]. destruct Hsig as (_ & _ & Hcc & _ & _ & Hret).
        intros s Hs. unfold fsig_pre. apply fsig_access_emits; [exact Hs|exact Hc|]. clear s Hs. intros s Hs. rewrite Hret, Hcc. cbn [w_opt].
        apply (emits_seq _ _ _ []); [apply emits_ifr|]. rewrite app_nil_r. unfold untyped_pre.
        destruct a as [| | | |[c0|]]; try apply emits_ifr. cbn [w_opt orb negb andb]. unfold show_cc. apply emits_if. intros _. apply cc_printc. exact Hs. }
      assert (Hpost : prints (fsig_post E rec f false) (match sig with Some t => post E t | None => [] end)).
      { destruct sig as [t|].
        - intros s. destruct Hsig as [Hn Hsig]. pose proof (fsig_post_emits f t false Hn Hsig s) as H. destruct t; cbn in Hsig; try contradiction. exact H.
        - destruct Hsig as (? & ? & ? & ? & ? & ?). apply fsig_post_none; assumption. }
      assert (Hth : forall ta, nd = NThunk f ta -> is_thunk a = true -> dadj (fs_class f) ta a ->
        is_sig nd = true /\ printc (out_pre E sg rec nd) (fn_pre c a sig) /\ prints (out_post E sg rec nd) (fn_post a sig)).
      { intros ta -> Ht Hadj. split; [reflexivity|]. split.
        - intros s Hs. cbn [out_pre]. unfold thunk_pre, fn_pre. rewrite Ht. cbn [andb]. apply emits_seq; [apply emits_if; intros _; apply emits_L|].
          unfold sig_access in Hpre. rewrite (app_assoc (show_access _ _)). apply Hpre. apply calm_opt; [exact Hs|calms].
        - intros s. cbn [out_post]. unfold thunk_post, fn_post. apply emits_seq; [apply thunk_adj_emits; exact Hadj|apply Hpost]. }
      destruct a; try (destruct Ha as (ta & -> & Hadj); apply (Hth ta); [reflexivity|reflexivity|exact Hadj]).
      subst nd. split; [reflexivity|]. split.
      - intros s Hs. cbn [out_pre]. unfold fn_pre. cbn [is_thunk andb opt app]. rewrite (app_assoc (show_access _ _)). apply Hpre. exact Hs.
      - intros s. cbn [out_post]. unfold fn_post. cbn [adjustment_text app]. apply Hpost.
    Qed.
  End PrintNode.

  (** ** The whole printer *)
  Lemma out_emits n : forall fuel w sg, n <= fuel -> compat w sg ->
    (forall h t, dty E n w h t -> printc (out fuel E sg OPre KType h) (pre E t) /\ prints (out fuel E sg OPost KType h) (post E t) /\
       printc (out fuel E sg OFull KType h) (show E t)) /\
    (forall k h x, dstr E n w k h x -> printc (out fuel E sg OFull k h) x) /\
    (forall h c a sig, dfn E n w h c a sig -> printc (out fuel E sg OPre KSig h) (fn_pre c a sig) /\ prints (out fuel E sg OPost KSig h) (fn_post a sig)).
  Proof.
    induction n as [|n IH]; intros fuel w sg Hn Hw; [repeat split; contradiction|].
    destruct fuel as [|fuel]; [lia|]. destruct (IH fuel w sg ltac:(lia) Hw) as (HD & HS & HF). cbn [out].
    split; [|split].
    - intros h t (nd & Hg & Hd). rewrite (get_resolve w sg Hw KType h nd Hg) by (eapply dnode_type; exact Hd).
      apply (type_emits w sg _ (dty E n w) (dstr E n w) Hw HD (dty_unfold E n w) HS). exact Hd.
    - intros k h x (nd & Hg & Hk & Hd). rewrite (get_resolve w sg Hw k h nd Hg Hk).
      apply (show_emits w sg _ (dty E n w) (dstr E n w) (dfn E n w) Hw HD (dty_unfold E n w) HS HF). exact Hd.
    - intros h c a sig (nd & Hg & Hd).
      destruct (fun_emits sg _ (dty E n w) (dstr E n w) HD HS nd c a sig Hd) as (Hs & H1 & H2).
      rewrite (get_resolve w sg Hw KSig h nd Hg) by exact Hs. auto.
  Qed.
  (** Rendering a node into an empty buffer. *)
  Lemma output_den w sg k h x b : compat w sg -> dstr E (cnt w) w k h x -> b_bytes b = [] ->
    (exists b', output E sg k h b = (b', Ok tt) /\ b_bytes b' = utf8 x /\ ustr x) \/
    (exists b', output E sg k h b = (b', Err (Io OutOfMemory)) /\ (e_out E <= N.of_nat (length (utf8 x)))%N).
  Proof.
    intros Hw Hd Hb. unfold output.
    destruct (out_emits (cnt w) (S (length sg)) w sg) as (_ & H & _); [|exact Hw|].
    { pose proof (cnt_len w). destruct Hw as [Hl _]. lia. }
    destruct (H k h x Hd [] eq_refl b) as [(b' & H1 & (H2 & H3) & _)|(b' & H1 & H2)].
    - split; [exact Hb|constructor].
    - left. exists b'. auto.
    - right. exists b'. auto.
  Qed.
End Emit.
