(** Brackets in demangled text match (C37). *)
From Verif Require Import Parser Api Utf8 Literal Number Mangle Trip Accepted StrLit Format SoundArgs Show Grammar.

(** ** Specification *)
(** The inside of a C string literal: no bare quote, and a backslash hides the next character. *)
Inductive quoted : str -> Prop :=
| q_nil : quoted []
| q_char c x : c <> ch """" -> c <> ch "\" -> quoted x -> quoted (c :: x)
| q_escape c x : quoted x -> quoted (ch "\" :: c :: x).
(** Text whose brackets match and nest; [B] lists the pairs of brackets.  Brackets inside string
    literals do not count. *)
Inductive balanced (B : list (N * N)) : str -> Prop :=
| ba_nil : balanced B []
| ba_char c x : c <> ch """" -> (forall o cl, In (o, cl) B -> c <> o /\ c <> cl) -> balanced B x -> balanced B (c :: x)
| ba_group o c x y : In (o, c) B -> balanced B x -> balanced B y -> balanced B (o :: x ++ c :: y)
| ba_quoted q y : quoted q -> balanced B y -> balanced B (ch """" :: q ++ ch """" :: y).
Definition brackets : list (N * N) := [(ch "(", ch ")"); (ch "[", ch "]"); (ch "{", ch "}")].
Definition angles : list (N * N) := brackets ++ [(ch "<", ch ">")].
(** The text contains none of the given characters; it does not contain the given text. *)
Definition free_of (l : str) (s : str) : Prop := forall c, In c s -> ~ In c l.
Definition without (p s : str) : Prop := forall a b, s <> a ++ p ++ b.
(** Codes of the operators with an angle in their name. *)
Definition angle_codes : list str := map L ["?5"; "?6"; "?C"; "?J"; "?M"; "?N"; "?O"; "?P"; "?_2"; "?_3"; "?__M"]%string.

(** ** Proofs *)
Definition pairs (angle : bool) : list (N * N) := if angle then angles else brackets.
Section Bal.
  Variable angle : bool.
  Notation B := (pairs angle).
  Notation bal := (balanced B).

  Lemma bal_app x y : bal x -> bal y -> bal (x ++ y).
  Proof.
    induction 1; intros Hy; cbn [app]; [exact Hy| | |].
    - apply ba_char; auto.
    - rewrite <- app_assoc. cbn [app]. apply ba_group; auto.
    - rewrite <- app_assoc. cbn [app]. apply ba_quoted; auto.
  Qed.
  (** Text without brackets or quotes. *)
  Definition plain (c : N) : bool := negb (c =? ch """")%N && forallb (fun p => negb (c =? fst p)%N && negb (c =? snd p)%N) B.
  Lemma plain_char c : plain c = true -> c <> ch """" /\ forall o cl, In (o, cl) B -> c <> o /\ c <> cl.
  Proof.
    unfold plain. intros H. apply andb_prop in H. destruct H as [H1 H2]. split.
    - apply negb_true_iff, N.eqb_neq in H1. exact H1.
    - intros o cl Hi. rewrite forallb_forall in H2. specialize (H2 _ Hi). cbn [fst snd] in H2. apply andb_prop in H2. destruct H2 as [A C].
      apply negb_true_iff, N.eqb_neq in A. apply negb_true_iff, N.eqb_neq in C. auto.
  Qed.
  Lemma bal_plain x : Forall (fun c => plain c = true) x -> bal x.
  Proof. induction 1; [constructor|]. destruct (plain_char _ H). apply ba_char; auto. Qed.

  (** A checker for constants. *)
  Definition closer (c : N) : option N := match List.find (fun p => (c =? fst p)%N) B with Some p => Some (snd p) | None => None end.
  Fixpoint chk (q : bool) (st : list N) (s : str) : bool :=
    match s with
    | [] => match st with [] => negb q | _ => false end
    | c :: s =>
      if q then (if (c =? ch """")%N then chk false st s else negb (c =? ch "\")%N && chk true st s)
      else if (c =? ch """")%N then chk true st s
      else match closer c with
           | Some d => chk false (d :: st) s
           | None => match st with
                     | d :: st' => if (c =? d)%N then chk false st' s else plain c && chk false st s
                     | [] => plain c && chk false st s
                     end
           end
    end.
  Fixpoint closes (st : list N) (s : str) : Prop :=
    match st with
    | [] => bal s
    | d :: st => exists x y, s = x ++ d :: y /\ bal x /\ closes st y
    end.
  Lemma closes_cons st p s : (forall x, bal x -> bal (p ++ x)) -> closes st s -> closes st (p ++ s).
  Proof.
    intros Hp. destruct st as [|d st]; cbn [closes]; [apply Hp|]. intros (x & y & -> & Hx & Hy). exists (p ++ x), y. rewrite <- app_assoc. auto.
  Qed.
  Lemma chk_ok s : forall st,
    (chk false st s = true -> closes st s) /\
    (chk true st s = true -> exists q r, s = q ++ ch """" :: r /\ quoted q /\ closes st r).
  Proof.
    induction s as [|c s IH]; intros st; cbn [chk].
    - split; [destruct st; [intros _; constructor|discriminate]|destruct st; discriminate].
    - split.
      + destruct (N.eqb_spec c (ch """")) as [->|Hq].
        * intros H. destruct (proj2 (IH st) H) as (q & r & -> & Hqu & Hc). change (ch """" :: q ++ ch """" :: r) with ((ch """" :: q) ++ [ch """"] ++ r). rewrite app_assoc. apply closes_cons; [|exact Hc].
          intros x Hx. cbn [app]. rewrite <- app_assoc. cbn [app]. apply ba_quoted; assumption.
        * destruct (closer c) as [d|] eqn:Hcl.
          -- intros H. apply (proj1 (IH (d :: st))) in H. cbn [closes] in H. destruct H as (x & y & -> & Hx & Hy).
             replace (c :: x ++ d :: y) with ((c :: x ++ [d]) ++ y) by (cbn [app]; rewrite <- app_assoc; reflexivity). apply closes_cons; [|exact Hy].
             intros z Hz. cbn [app]. rewrite <- app_assoc. cbn [app]. apply ba_group; try assumption.
             unfold closer in Hcl. destruct (List.find _ B) as [p|] eqn:Hf; [|discriminate]. injection Hcl as <-. apply List.find_some in Hf. destruct Hf as [Hi He]. apply N.eqb_eq in He. subst c. destruct p; exact Hi.
          -- assert (Hpl : plain c && chk false st s = true -> closes st (c :: s)).
             { intros H. apply andb_prop in H. destruct H as [H1 H2]. apply (closes_cons st [c]); [|apply IH; exact H2]. intros x Hx. destruct (plain_char _ H1). apply ba_char; assumption. }
             destruct st as [|d st]; [exact Hpl|]. destruct (N.eqb_spec c d) as [->|]; [|exact Hpl].
             intros H. exists [], s. split; [reflexivity|]. split; [constructor|apply IH; exact H].
      + destruct (N.eqb_spec c (ch """")) as [->|Hq].
        * intros H. exists [], s. split; [reflexivity|]. split; [constructor|apply IH; exact H].
        * intros H. apply andb_prop in H. destruct H as [H1 H2]. destruct (proj2 (IH st) H2) as (q & r & -> & Hqu & Hc).
          exists (c :: q), r. split; [reflexivity|]. split; [|exact Hc]. apply q_char; try assumption. apply negb_true_iff, N.eqb_neq in H1. exact H1.
  Qed.
  Lemma bal_const s : chk false [] s = true -> bal s.
  Proof. apply (proj1 (chk_ok s [])). Qed.

End Bal.
Ltac bapp := repeat match goal with |- balanced _ (_ ++ _) => apply bal_app end.
Section Wraps.
  Variable angle : bool.
  Notation B := (pairs angle).
  Notation bal := (balanced B).
  (** What is put around a declared name. *)
  Definition wraps (p q : str) : Prop := forall x, bal x -> bal (p ++ x ++ q).
  Lemma wraps_nest p q p' q' : wraps p q -> wraps p' q' -> wraps (p ++ p') (q' ++ q).
  Proof. intros H H' x Hx. replace ((p ++ p') ++ x ++ q' ++ q) with (p ++ (p' ++ x ++ q') ++ q) by (rewrite !app_assoc; reflexivity). apply H, H', Hx. Qed.
  Lemma wraps_left p : bal p -> wraps p [].
  Proof. intros H x Hx. rewrite app_nil_r. apply bal_app; assumption. Qed.
  Lemma wraps_right p : bal p -> wraps [] p.
  Proof. intros H x Hx. cbn [app]. apply bal_app; assumption. Qed.
  Lemma wraps_bal p q : wraps p q -> bal (p ++ q).
  Proof. intros H. apply (H []). constructor. Qed.
  Lemma in_B o c : In (o, c) brackets -> In (o, c) B.
  Proof. unfold pairs. destruct angle; [intros H; apply in_or_app; left; exact H|auto]. Qed.
  Lemma wraps_group o c : In (o, c) brackets -> wraps [o] [c].
  Proof. intros H x Hx. cbn [app]. apply ba_group; [apply in_B; exact H|exact Hx|constructor]. Qed.
  Lemma wraps_app_l p q p' : wraps p q -> bal p' -> wraps (p ++ p') q.
  Proof. intros H Hp. rewrite <- (app_nil_l q). apply wraps_nest; [exact H|apply wraps_left; exact Hp]. Qed.
  Lemma wraps_app_r p q q' : wraps p q -> bal q' -> wraps p (q' ++ q).
  Proof. intros H Hq. rewrite <- (app_nil_r p). apply wraps_nest; [exact H|apply wraps_right; exact Hq]. Qed.
  Lemma bal_nil : bal []. Proof. constructor. Qed.
  Lemma bal_opt b x : bal x -> bal (opt b x).
  Proof. destruct b; [auto|constructor]. Qed.
  Lemma bal_join sep l : bal sep -> Forall bal l -> bal (join sep l).
  Proof.
    intros Hs. induction 1 as [|x l Hx Hl IH]; [constructor|]. cbn [join]. destruct l; [exact Hx|]. apply bal_app; [exact Hx|]. apply bal_app; assumption.
  Qed.
  Lemma bal_qualified l : Forall bal l -> bal (qualified l).
  Proof. apply bal_join. apply bal_const. destruct angle; reflexivity. Qed.
  Lemma digit_plain c : is_digit c = true -> plain angle c = true.
  Proof.
    unfold is_digit, in_range. intros H. apply andb_prop in H. destruct H as [H1 H2]. apply N.leb_le in H1. apply N.leb_le in H2.
    change (ch "0") with 48%N in H1. change (ch "9") with 57%N in H2. unfold plain, pairs, angles, brackets. destruct angle; cbn [forallb app fst snd]; repeat match goal with |- context [(c =? ?k)%N] => let v := eval compute in k in change k with v; destruct (N.eqb_spec c v); [lia|] end; reflexivity.
  Qed.
  Lemma bal_dec n : bal (dec_N n).
  Proof. apply bal_plain. eapply Forall_impl; [|apply dec_N_digits]. intros c. apply digit_plain. Qed.
  Lemma bal_cons c x : plain angle c = true -> bal x -> bal (c :: x).
  Proof. intros H. destruct (plain_char _ _ H). apply ba_char; assumption. Qed.
  Lemma bal_decZ z : bal (dec_Z z).
  Proof. unfold dec_Z. destruct z; try apply bal_dec. apply (bal_app _ (L "-")); [|apply bal_dec]. apply bal_const. destruct angle; reflexivity. Qed.

  (** *** Types *)
  Variable E : env.
  Hypothesis Hn : name_only E = false.
  Ltac const := apply bal_const; destruct angle; reflexivity.
  Lemma bal_kw w : bal w -> bal (kw E w).
  Proof. intros H. unfold kw. apply bal_app; [apply bal_opt; const|exact H]. Qed.
  Lemma bal_words q : Forall bal (qual_words E q).
  Proof.
    assert (Hone : forall (b : bool) w, bal w -> Forall bal (if b then [w] else [])) by (intros [] w Hw; repeat constructor; exact Hw).
    unfold qual_words. apply Forall_app. split; [|apply Forall_app; split]; apply Hone; [const|const|]. apply bal_opt, bal_kw. const.
  Qed.
  Lemma bal_after q : bal (quals_after E q).
  Proof. unfold quals_after. induction (bal_words q); cbn [map concat]; [constructor|]. apply bal_app; [|assumption]. apply bal_app; [const|assumption]. Qed.
  Lemma bal_alone q : bal (quals_alone E q).
  Proof. apply bal_join; [const|apply bal_words]. Qed.
  Lemma bal_cc c : bal (cc_text E c).
  Proof. destruct c; cbn [cc_text]; try (apply bal_kw; const); const. Qed.
  Lemma bal_prim k : bal (prim_text k). Proof. destruct k; const. Qed.
  Lemma bal_sp x : bal x -> bal (sp E x).
  Proof. intros H. apply bal_app; [exact H|apply bal_opt; const]. Qed.
  Lemma wraps_sp p q : wraps p q -> wraps (sp E p) q.
  Proof. intros H. apply wraps_app_l; [exact H|apply bal_opt; const]. Qed.
  Lemma bal_paren x : bal x -> bal (L "(" ++ x ++ L ")").
  Proof. apply wraps_group. left. reflexivity. Qed.
  Lemma bal_params ps v : (match ps with Some l => Forall bal l | None => True end) -> bal (params_text ps v).
  Proof.
    intros H. unfold params_text. cbv zeta.
    match goal with |- balanced _ (L "(" ++ ?a ++ ?b ++ L ")") => replace (L "(" ++ a ++ b ++ L ")") with (L "(" ++ (a ++ b) ++ L ")") by (rewrite <- !app_assoc; reflexivity) end.
    apply bal_paren, bal_app; [destruct ps; [apply bal_join; [const|exact H]|const]|]. apply bal_opt, bal_app; [|const].
    destruct (rev _); [constructor|]. apply bal_opt. const.
  Qed.
  Lemma bal_tail q ne rq : bal (fn_tail E q ne rq).
  Proof.
    unfold fn_tail. cbv zeta. bapp; repeat apply bal_opt; bapp; repeat apply bal_opt; try const.
    - apply bal_app; apply bal_opt; (apply bal_app; [const|apply bal_kw; const]).
    - destruct rq as [[]|]; const.
  Qed.
  (** All names in a type are balanced. *)
  Fixpoint names_ok (t : ty) : Prop :=
    match t with
    | TPrim _ _ => True
    | TTag _ _ n => Forall bal n
    | TPtr _ _ cls p => match cls with Some n => Forall bal n | None => True end /\ names_ok p
    | TArr _ _ el => names_ok el
    | TFun _ _ _ ret ps _ _ =>
      match ret with Some r => names_ok r | None => True end /\
      match ps with Some l => (fix all l := match l with [] => True | t :: l => names_ok t /\ all l end) l | None => True end
    | TCustom _ x => bal x
    end.
  Definition type_ok (t : ty) : Prop :=
    wraps (pre E t) (post E t) /\
    match t with
    | TFun _ _ _ ret ps v _ =>
      match ret with Some r => wraps (pre E r) (post E r) | None => True end /\
      bal (params_text (match ps with Some l => Some (map (fun t => pre E t ++ post E t) l) | None => None end) v)
    | _ => True
    end.
  Lemma bal_dims ds : bal (L "[" ++ join (L "][") (map dim_text ds) ++ L "]").
  Proof.
    assert (Hd : forall d, bal (dim_text d)) by (intros d; unfold dim_text; destruct (d =? 0)%N; [constructor|apply bal_dec]).
    assert (Hg : forall x y, bal x -> bal y -> bal (ch "[" :: x ++ ch "]" :: y)) by (intros x y Hx Hy; apply ba_group; try assumption; apply in_B; right; left; reflexivity).
    induction ds as [|d ds IH]; [const|]. cbn [map join]. destruct ds as [|d' ds].
    - apply Hg; [apply Hd|constructor].
    - cbn [map] in *. set (j := join (L "][") (dim_text d' :: map dim_text ds)) in *.
      change (L "][") with [ch "]"; ch "["]. change (L "[") with [ch "["] in *. change (L "]") with [ch "]"] in *.
      cbn [app] in *. rewrite <- !app_assoc. cbn [app]. apply Hg; [apply Hd|exact IH].
  Qed.
  Lemma type_wraps : forall t, names_ok t -> type_ok t.
  Proof.
    induction t as [q k|q k n|q a cls p IH|q ds el IH|q cc rq ret ps v ne IHr IHp|q x] using ty_ind'; intros Ho; unfold type_ok.
    - split; [|exact I]. cbn [pre post]. apply wraps_left, bal_app; [apply bal_prim|apply bal_after].
    - split; [|exact I]. cbn [pre post]. cbn [names_ok] in Ho. apply wraps_left. bapp; [apply bal_opt, bal_app; [destruct k; const|const]|apply bal_qualified; exact Ho|apply bal_after].
    - split; [|exact I]. cbn [names_ok] in Ho. destruct Ho as [Hc Hp]. specialize (IH Hp). destruct IH as [IH1 IH2].
      assert (Hm : bal (match cls with Some n => qualified n ++ L "::" | None => [] end)) by (destruct cls; [apply bal_app; [apply bal_qualified; exact Hc|const]|constructor]).
      assert (Ht : bal (pointer_text a ++ quals_alone E q)) by (apply bal_app; [destruct a; const|apply bal_alone]).
      assert (Hu : bal (opt (negb (no_ms_keywords E) && contains q Q_Unaligned) (kw E (L "unaligned") ++ L " "))) by (apply bal_opt, bal_app; [apply bal_kw; const|const]).
      set (u := opt (negb (no_ms_keywords E) && contains q Q_Unaligned) (kw E (L "unaligned") ++ L " ")) in *.
      set (m := match cls with Some n => qualified n ++ L "::" | None => [] end) in *. set (e := pointer_text a ++ quals_alone E q) in *.
      assert (Hgen : wraps (sp E (pre E p) ++ u ++ [] ++ m ++ e) (post E p)).
      { cbn [app]. apply wraps_app_l; [apply wraps_sp; exact IH1|]. apply bal_app; [exact Hu|apply bal_app; [exact Hm|exact Ht]]. }
      destruct p as [q' k'|q' k' n'|q' a' c' p'|q' ds' el'|q' cc' rq' r' ps' v' ne'|q' x']; [exact Hgen|exact Hgen|exact Hgen| | |exact Hgen].
      + change (wraps (sp E (pre E (TArr q' ds' el')) ++ u ++ L "(" ++ m ++ e) (L ")" ++ post E (TArr q' ds' el'))).
        rewrite !app_assoc. rewrite <- (app_assoc _ m e). apply wraps_app_l; [|apply bal_app; assumption]. apply wraps_nest; [|apply wraps_group; left; reflexivity].
        apply wraps_app_l; [apply wraps_sp; exact IH1|exact Hu].
      + destruct IH2 as [Hr Hps].
        change (wraps (sp E (match r' with Some r => opt (negb (no_return_type E)) (pre E r ++ L " ") | None => [] end) ++ u ++
            (L "(" ++ match cc' with Some c => opt (show_cc E) (cc_text E c ++ L " ") | None => [] end) ++ m ++ e)
          (L ")" ++ params_text (match ps' with Some l => Some (map (fun t => pre E t ++ post E t) l) | None => None end) v' ++
           fn_tail E q' ne' rq' ++ match r' with Some r => opt (negb (no_return_type E) && negb (name_only E)) (post E r) | None => [] end)).
        set (pt := params_text _ _) in *. rewrite Hn. rewrite andb_true_r.
        replace (L ")" ++ pt ++ fn_tail E q' ne' rq' ++ match r' with Some r => opt (negb (no_return_type E)) (post E r) | None => [] end)
          with (L ")" ++ ((pt ++ fn_tail E q' ne' rq') ++ match r' with Some r => opt (negb (no_return_type E)) (post E r) | None => [] end)) by (rewrite <- !app_assoc; reflexivity).
        assert (Hc' : bal (match cc' with Some c => opt (show_cc E) (cc_text E c ++ L " ") | None => [] end)) by (destruct cc'; [apply bal_opt, bal_app; [apply bal_cc|const]|constructor]).
        set (cct := match cc' with Some c => opt (show_cc E) (cc_text E c ++ L " ") | None => [] end) in *.
        rewrite !app_assoc. rewrite <- (app_assoc _ m e), <- (app_assoc _ cct). apply wraps_app_l; [|apply bal_app; [exact Hc'|apply bal_app; [exact Hm|exact Ht]]].
        rewrite <- !app_assoc, (app_assoc _ u). apply wraps_nest; [|apply wraps_group; left; reflexivity].
        rewrite app_assoc. apply wraps_app_r; [|apply bal_app; [exact Hps|apply bal_tail]]. apply wraps_app_l; [|exact Hu]. apply wraps_sp.
        destruct r' as [r|]; [|apply wraps_left; constructor]. destruct (negb (no_return_type E)); cbn [opt]; [|apply wraps_left; constructor].
        apply wraps_app_l; [exact Hr|const].
    - split; [|exact I]. cbn [pre post]. cbn [names_ok] in Ho. destruct (IH Ho) as [IH1 _]. rewrite !app_assoc, <- (app_assoc (L "[")).
      apply wraps_app_r; [|apply bal_dims]. apply wraps_app_l; [exact IH1|apply bal_after].
    - cbn [names_ok] in Ho. destruct Ho as [Hor Hop].
      assert (Hps : bal (params_text (match ps with Some l => Some (map (fun t => pre E t ++ post E t) l) | None => None end) v)).
      { apply bal_params. destruct ps as [l|]; [|exact I]. induction l as [|t l IHl]; cbn [map]; [constructor|]. destruct Hop as [H1 H2]. inversion IHp; subst.
        constructor; [|apply IHl; assumption]. apply wraps_bal. apply H3. exact H1. }
      assert (Hr : match ret with Some r => wraps (pre E r) (post E r) | None => True end) by (destruct ret; [apply IHr; exact Hor|exact I]).
      split; [|split; assumption]. cbn [pre post]. rewrite Hn. cbn [negb opt]. rewrite !andb_true_r.
      rewrite app_assoc. apply wraps_app_r; [|apply bal_app; [exact Hps|apply bal_tail]].
      apply wraps_app_l; [|destruct cc; [apply bal_opt, bal_cc|constructor]].
      destruct ret as [r|]; [|apply wraps_left; constructor]. destruct (negb (no_return_type E)); cbn [opt]; [|apply wraps_left; constructor]. apply wraps_app_l; [exact Hr|const].
    - split; [|exact I]. cbn [pre post]. apply wraps_left. exact Ho.
  Qed.
  Lemma bal_show t : names_ok t -> bal (show E t).
  Proof. intros H. apply wraps_bal, type_wraps, H. Qed.
  Lemma names_quals f t : names_ok (map_quals f t) <-> names_ok t.
  Proof. destruct t; reflexivity. Qed.

  (** *** Names and symbols *)
  Definition good (t : str) : Prop :=
    Forall (fun c => plain angle c = true) t /\ (angle = true -> forall p, In p angle_codes -> without p t).
  Lemma good_app a b : good (a ++ b) -> good a /\ good b.
  Proof.
    intros [H1 H2]. apply Forall_app in H1. destruct H1 as [Ha Hb]. split; (split; [assumption|]); intros Hang p Hp x y He; pose proof (H2 Hang p Hp) as Hw; unfold without in Hw.
    - apply (Hw x (y ++ b)). rewrite He, <- !app_assoc. reflexivity.
    - apply (Hw (a ++ x) y). rewrite He, <- !app_assoc. reflexivity.
  Qed.
  Lemma good_cons c b : good (c :: b) -> good [c] /\ good b.
  Proof. apply (good_app [c] b). Qed.
  Lemma good_bal t : good t -> bal t.
  Proof. intros [H _]. apply bal_plain. exact H. Qed.
  Definition tabok (G : tab) : Prop := Forall bal (fst G) /\ Forall names_ok (snd G).
  Lemma tab_empty : tabok empty_tab. Proof. split; constructor. Qed.
  Lemma tab_remember x G : bal x -> tabok G -> tabok (remember x G).
  Proof. intros Hx [H1 H2]. unfold remember. destruct (_ || _); [split; assumption|]. split; [apply Forall_app; split; [exact H1|constructor; [exact Hx|constructor]]|exact H2]. Qed.
  Lemma tab_param t G : names_ok t -> tabok G -> tabok (remember_param t G).
  Proof. intros Hx [H1 H2]. unfold remember_param. destruct (_ <? _); [|split; assumption]. split; [exact H1|apply Forall_app; split; [exact H2|constructor; [exact Hx|constructor]]]. Qed.
  Lemma tab_name G i x : nth_error (fst G) i = Some x -> tabok G -> bal x.
  Proof. intros H [H1 _]. rewrite Forall_forall in H1. apply H1. eapply nth_error_In. exact H. Qed.
  Lemma tab_type G i x : nth_error (snd G) i = Some x -> tabok G -> names_ok x.
  Proof. intros H [_ H1]. rewrite Forall_forall in H1. apply H1. eapply nth_error_In. exact H. Qed.
  Definition ido (i : idk) : Prop := match i with IText x => bal x | IStructor _ a => bal a | IConv a => bal a end.
  Lemma ido_targs i a : ido i -> bal a -> ido (with_targs i a).
  Proof. destruct i; cbn; intros; apply bal_app; assumption. Qed.
  Lemma bal_id i ss r x : id_text E i ss r x -> ido i -> Forall bal ss -> match r with Some t => names_ok t | None => True end -> bal x.
  Proof.
    intros H. destruct H; cbn [ido]; intros Hi Hs Hr; [exact Hi| |].
    - apply Forall_app in Hs. destruct Hs as [_ Hs]. inversion Hs; subst. bapp; [apply bal_opt; const|assumption|assumption].
    - bapp; [const|exact Hi|const|apply bal_show; exact Hr].
  Qed.
  Lemma bal_angle x : bal x -> bal (L "<" ++ x ++ L ">").
  Proof.
    intros H. destruct angle eqn:Ha.
    - change (balanced (pairs true) (ch "<" :: x ++ ch ">" :: [])). apply ba_group; [|exact H|constructor]. cbn. auto.
    - bapp; try exact H; apply bal_const; reflexivity.
  Qed.
  Lemma bal_targs xs : Forall bal xs -> bal (L "<" ++ join (L ", ") xs ++ L ">").
  Proof. intros H. apply bal_angle, bal_join; [const|exact H]. Qed.
  Lemma bal_braces xs : Forall bal xs -> bal (braces xs).
  Proof. intros H. unfold braces. apply wraps_group; [right; right; left; reflexivity|]. apply bal_join; [const|exact H]. Qed.
  Lemma bal_offs zs : Forall bal (map dec_Z zs).
  Proof. induction zs; constructor; [apply bal_decZ|assumption]. Qed.
  Lemma bal_operator c x : In (c, x) operators -> good (L "?" ++ c) -> bal x.
  Proof.
    intros Hi [_ Hg].
    assert (H : forallb (fun p => chk angle false [] (snd p) || angle && existsb (str_eqb (L "?" ++ fst p)) angle_codes) operators = true) by (destruct angle; vm_compute; reflexivity).
    rewrite forallb_forall in H. specialize (H _ Hi). cbn [fst snd] in H. apply orb_prop in H. destruct H as [H|H]; [apply bal_const; exact H|].
    apply andb_prop in H. destruct H as [Ha H]. apply existsb_exists in H. destruct H as (p & Hp & He). apply str_eqb_eq in He.
    exfalso. apply (Hg Ha p Hp [] []). rewrite He, app_nil_r. reflexivity.
  Qed.
  Lemma bal_table k nm : In (k, nm) table_codes -> bal nm.
  Proof. intros H. cbn in H. repeat (destruct H as [H|H]; [injection H as <- <-; const|]). contradiction. Qed.
  Lemma bal_rtti k nm : In (k, nm) rtti_codes -> bal nm.
  Proof. intros H. cbn in H. repeat (destruct H as [H|H]; [injection H as <- <-; const|]). contradiction. Qed.
  (** String literals. *)
  Lemma quoted_app x y : quoted x -> quoted y -> quoted (x ++ y).
  Proof. induction 1; intros; cbn [app]; [assumption|apply q_char; auto|apply q_escape; auto]. Qed.
  Lemma hex_quoted c : quoted (hex2_N c).
  Proof.
    destruct (hex2_N_correct c) as (H & _). induction H as [|x l Hx Hl IH]; [constructor|]. apply q_char; [| |exact IH]; intros ->; vm_compute in Hx; discriminate.
  Qed.
  Lemma escape_quoted c : quoted (c_escape c).
  Proof.
    assert (Hd : quoted (if in_range 32 126 c then [c] else L "\x" ++ hex2_N c) \/ c = 34%N \/ c = 92%N).
    { destruct (N.eq_dec c 34) as [->|H1]; [auto|]. destruct (N.eq_dec c 92) as [->|H2]; [auto|]. left.
      destruct (in_range _ _ _); [apply q_char; [exact H1|exact H2|constructor]|]. apply q_escape, hex_quoted. }
    destruct Hd as [Hd|[->| ->]]; [|apply q_escape; constructor|apply q_escape; constructor].
    unfold c_escape. destruct c as [|p]; [apply q_escape; constructor|].
    do 7 (destruct p as [p|p|]; try exact Hd; try (apply q_escape; constructor)).
  Qed.
  Lemma text_quoted l : quoted (c_text l).
  Proof. unfold c_text. induction l; cbn [map concat]; [constructor|]. apply quoted_app; [apply escape_quoted|assumption]. Qed.
  Lemma bal_quote x y : quoted x -> bal y -> bal (L """" ++ x ++ L """" ++ y).
  Proof. intros Hx Hy. apply (ba_quoted _ x y); assumption. Qed.
  Lemma bal_literal lim t x : literal lim t x -> bal x.
  Proof.
    assert (Hq : forall w l y, bal y -> bal (quote w ++ c_text l ++ L """" ++ y)).
    { intros w l y Hy. pose proof (bal_quote (c_text l) y (text_quoted l) Hy) as H. destruct w; cbn [quote]; [exact H| |].
      - apply (bal_app _ (L "u") _); [const|exact H].
      - apply (bal_app _ (L "U") _); [const|exact H]. }
    assert (Hw : forall l y, bal y -> bal (L "L""" ++ c_text l ++ L """" ++ y)).
    { intros l y Hy. apply (bal_app _ (L "L") _); [const|apply (bal_quote (c_text l) y (text_quoted l) Hy)]. }
    assert (Hdots : bal (L "...")) by const.
    destruct 1.
    - unfold narrow_text. cbv zeta. destruct (_ <? _)%N; [exact (Hq _ _ _ Hdots)|exact (Hq _ _ _ (ba_nil _))].
    - unfold wide_text. cbv zeta. destruct (_ <? _)%N; [exact (Hw _ _ Hdots)|exact (Hw _ _ (ba_nil _))].
  Qed.
  (** Symbols. *)
  Lemma bal_access a : bal (show_access E a).
  Proof. apply bal_opt. destruct a as [[]|]; const. Qed.
  Lemma bal_member a b c : bal (show_member_type E a b c).
  Proof. apply bal_opt. bapp; apply bal_opt; const. Qed.
  Lemma bal_variable a t x : names_ok t -> bal x -> bal (show_variable E a t x).
  Proof.
    intros Ht Hx. unfold show_variable. bapp; [apply bal_access|apply bal_member|]. destruct (_ && _); [|exact Hx].
    apply (wraps_sp _ _ (proj1 (type_wraps t Ht))). exact Hx.
  Qed.
  Lemma bal_adjust a : bal (adjustment_text a).
  Proof.
    assert (Hb : forall p x, bal p -> bal x -> bal (p ++ L "{" ++ x ++ L "}" ++ L "'")).
    { intros p x Hp Hx. apply bal_app; [exact Hp|]. pose proof (wraps_group (ch "{") (ch "}") (or_intror (or_intror (or_introl eq_refl))) x Hx) as H.
      rewrite !app_assoc. apply bal_app; [|const]. rewrite <- app_assoc. exact H. }
    assert (Hsep : bal (L ", ")) by const.
    destruct a as [|n|v n|vb vo v n|c]; cbn [adjustment_text].
    - constructor.
    - exact (Hb (L "`adjustor") (dec_N n) ltac:(const) (bal_dec n)).
    - pose proof (Hb (L "`vtordisp") (dec_Z v ++ L ", " ++ dec_N n) ltac:(const) ltac:(bapp; first [apply bal_decZ|apply bal_dec|exact Hsep])) as H. rewrite <- !app_assoc in H. exact H.
    - pose proof (Hb (L "`vtordispex") (dec_Z vb ++ L ", " ++ dec_Z vo ++ L ", " ++ dec_Z v ++ L ", " ++ dec_N n) ltac:(const) ltac:(bapp; first [apply bal_decZ|apply bal_dec|exact Hsep])) as H. rewrite <- !app_assoc in H. exact H.
    - constructor.
  Qed.
  Definition sig_ok (s : option ty) : Prop := match s with Some t => names_ok t | None => True end.
  Lemma bal_function c a s x : sig_ok s -> bal x -> bal (show_function E c a s x).
  Proof.
    intros Hs Hx. unfold show_function.
    match goal with |- balanced _ (sp E (?p ++ ?q ++ ?r ++ _) ++ _) => assert (Hp : bal p) by (apply bal_opt; const); assert (Hq : bal q) by apply bal_access; assert (Hr : bal r) by apply bal_member end.
    assert (Hm : bal (x ++ adjustment_text a)) by (apply bal_app; [exact Hx|apply bal_adjust]).
    destruct s as [t|].
    - rewrite (app_assoc x). apply wraps_sp; [|exact Hm]. rewrite !app_assoc. intros z Hz. rewrite <- (app_assoc _ (pre E t)). apply bal_app; [bapp; assumption|].
      apply (proj1 (type_wraps t Hs)). exact Hz.
    - rewrite app_nil_r. apply bal_app; [|exact Hm]. apply bal_sp. bapp; try assumption.
      destruct a as [| | | |[c'|]]; try constructor. apply bal_opt, bal_cc.
  Qed.
  Lemma bal_md5 h : good h -> bal (md5_text h).
  Proof. intros H. unfold md5_text. bapp; [const|apply good_bal; exact H|const]. Qed.
  Lemma bal_special q n t : bal n -> match t with Some n => Forall bal n | None => True end -> bal (show_table E q n t).
  Proof.
    intros Hn' Ht. unfold show_table. bapp; [apply bal_opt; unfold quals_before; apply bal_app; [apply bal_alone|apply bal_opt; const]|exact Hn'|].
    destruct t as [l|]; [|constructor]. pose proof (wraps_group (ch "{") (ch "}") (or_intror (or_intror (or_introl eq_refl))) (L "for `" ++ qualified l ++ L "'")) as H.
    change (bal ([ch "{"] ++ L "for `" ++ qualified l ++ L "'" ++ [ch "}"])). rewrite <- !app_assoc in H. apply H. bapp; [const|apply bal_qualified; exact Ht|const].
  Qed.
  Lemma bal_guard th i : bal (guard_text th i).
  Proof.
    unfold guard_text. apply bal_app; [destruct th; const|]. apply bal_opt. apply wraps_group; [right; right; left; reflexivity|apply bal_dec].
  Qed.
  Lemma bal_base a b c d : bal (base_descriptor_text a b c d).
  Proof.
    unfold base_descriptor_text. change (L "`RTTI Base Class Descriptor at (") with (L "`RTTI Base Class Descriptor at " ++ L "("). change (L ")'") with (L ")" ++ L "'").
    rewrite <- app_assoc. apply bal_app; [const|]. rewrite !app_assoc. apply bal_app; [|const]. rewrite <- !app_assoc.
    pose proof (bal_paren (dec_N a ++ L ", " ++ dec_Z b ++ L ", " ++ dec_N c ++ L ", " ++ dec_N d) ltac:(bapp; first [apply bal_decZ|apply bal_dec|const])) as H.
    rewrite <- !app_assoc in H. exact H.
  Qed.
  Lemma bal_vcall o : bal (vcall_text E o).
  Proof.
    unfold vcall_text. rewrite Hn. change (L "`vcall'{") with (L "`vcall'" ++ L "{"). rewrite <- app_assoc. apply bal_app; [const|].
    change (L ", {flat}}") with (L ", {flat}" ++ L "}"). rewrite (app_assoc (dec_N o)). apply wraps_group; [right; right; left; reflexivity|]. apply bal_app; [apply bal_dec|const].
  Qed.
  Lemma bal_dynamic d v x : bal x -> bal (dynamic_text d v x).
  Proof. intros H. unfold dynamic_text. bapp; [destruct d; const|destruct v; const|exact H|const]. Qed.

  Lemma ubase_bal G t i G' : ubase G t i G' -> good t -> tabok G -> ido i /\ tabok G'.
  Proof.
    destruct 1; intros Hg Ht; cbn [ido].
    - apply good_app in Hg. destruct Hg as [Hg _]. apply good_bal in Hg. split; [exact Hg|apply tab_remember; assumption].
    - split; [eapply bal_operator; eassumption|exact Ht].
    - apply good_app in Hg. destruct Hg as [_ Hg]. apply good_app in Hg. destruct Hg as [Hg _]. split; [apply bal_app; [const|apply good_bal; exact Hg]|exact Ht].
    - split; [constructor|exact Ht].
    - split; [constructor|exact Ht].
    - split; [constructor|exact Ht].
  Qed.
  Lemma all_fix l : Forall names_ok l -> (fix all l := match l with [] => True | t :: l => names_ok t /\ all l end) l.
  Proof. induction 1; [exact I|split; assumption]. Qed.

  Lemma sig_ret s : sig_ok s -> match (match s with Some (TFun _ _ _ r _ _ _) => r | _ => None end) with Some r => names_ok r | None => True end.
  Proof. destruct s as [[]|]; cbn; easy. Qed.

End Wraps.
