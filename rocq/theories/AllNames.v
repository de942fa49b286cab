(** No name of a declaration is dropped (C50).  Nothing here models code: it is about the texts
    [Show] gives to types and symbols, which [Accepted] ties to the demangler. *)
From Coq Require Import Permutation.
From Verif Require Import Parser Api Utf8 Lex Safety Mangle Trip Round RoundSyms RoundSpecials Specials Accepted Show Grammar.

(** ** Specification *)
(** The texts of a list occur in a text one after the other, without overlap. *)
Inductive in_order : list str -> str -> Prop :=
| io_nil t : in_order [] t
| io_cons gap x l t : in_order l t -> in_order (x :: l) (gap ++ x ++ t).
(** They occur without overlap, in some order. *)
Definition mentions (l : list str) (t : str) : Prop := exists l', Permutation l l' /\ in_order l' t.

(** The names in a type, each as often as it is written: components of the names of classes, of
    the classes of member pointers, and custom types.  Those in return types count if [ret]. *)
Fixpoint names_of (ret : bool) (t : ty) : list str :=
  match t with
  | TPrim _ _ => []
  | TTag _ _ n => n
  | TPtr _ _ cls p => match cls with Some n => n | None => [] end ++ names_of ret p
  | TArr _ _ el => names_of ret el
  | TFun _ _ _ r ps _ _ =>
    match r with Some y => if ret then names_of ret y else [] | None => [] end ++
    match ps with Some l => concat (map (names_of ret) l) | None => [] end
  | TCustom _ x => [x]
  end.

(** A decorated name, the components of its qualified name (for a table of a class also those of
    the base it is for), and the types written in it. *)
Inductive declaration (E : env) : str -> list str -> list ty -> Prop :=
| dn_variable n i G1 c ss G2 v a y G3 x rest :
    usym E empty_tab n i G1 -> chain E G1 c ss G2 -> variable E G2 v a y G3 -> id_text E i ss None x ->
    declaration E ((L "?" ++ n ++ c ++ v) ++ rest) (ss ++ [x]) [y]
| dn_function n i G1 c ss G2 f k a sig G3 x rest :
    usym E empty_tab n i G1 -> chain E G1 c ss G2 -> function E G2 f k a sig G3 ->
    id_text E i ss (match sig with Some (TFun _ _ _ r _ _ _) => r | _ => None end) x ->
    declaration E ((L "?" ++ n ++ c ++ f) ++ rest) (ss ++ [x]) (match sig with Some t => [t] | None => [] end)
| dn_table k nm c ss G1 far m qc qv t n G2 rest :
    In (k, nm) table_codes -> chain E empty_tab c ss G1 -> In far (L "67") -> qname E G1 t n G2 ->
    declaration E ((L "??" ++ k ++ c ++ [far; cv_code m qc qv] ++ t) ++ rest) (ss ++ [nm] ++ n) []
| dn_initializer d n i G1 c ss G2 f k a sig G3 x rest :
    usym E empty_tab n i G1 -> first_is_not "?"%char n -> chain E G1 c ss G2 -> function E G2 f k a sig G3 ->
    id_text E i ss (match sig with Some (TFun _ _ _ r _ _ _) => r | _ => None end) x ->
    declaration E ((dynamic_code d ++ n ++ c ++ f) ++ rest) (ss ++ [x]) (match sig with Some t => [t] | None => [] end)
| dn_initializer_of d (known : bool) n i G1 c ss G2 v acc y G3 x f k a sig G4 rest :
    dsym E empty_tab n i G1 -> (known = false -> first_is_not "?"%char n) ->
    chain E G1 c ss G2 -> variable E G2 v acc y G3 -> id_text E i ss None x -> function E G3 f k a sig G4 ->
    declaration E ((dynamic_code d ++ opt known (L "?") ++ n ++ c ++ v ++ (if known then L "@@" else L "@") ++ f) ++ rest)
      (ss ++ [x]) (y :: match sig with Some t => [t] | None => [] end)
| dn_type t y G' : rtype E empty_tab t y G' -> declaration E (L "." ++ t) [] [y]
| dn_type_descriptor t y G' : rtype E empty_tab t y G' -> declaration E (L "??_R0" ++ t ++ L "@8") [] [y].
(** The names in its types. *)
Definition names_in (ret : bool) (ys : list ty) : list str := concat (map (names_of ret) ys).

(** ** Proofs *)
Lemma io_behind l : forall a t, in_order l t -> in_order l (a ++ t).
Proof.
  intros a t H. destruct H as [|gap x l t H]; [constructor|]. rewrite app_assoc. constructor. exact H.
Qed.
Lemma io_app l1 t1 l2 t2 : in_order l1 t1 -> in_order l2 t2 -> in_order (l1 ++ l2) (t1 ++ t2).
Proof.
  intros H1 H2. induction H1 as [t|gap x l t H1 IH]; cbn [app]; [apply io_behind; exact H2|].
  rewrite <- !app_assoc. constructor. exact IH.
Qed.
Lemma me_nil t : mentions [] t. Proof. exists []. split; [constructor|constructor]. Qed.
Lemma me_app l1 t1 l2 t2 : mentions l1 t1 -> mentions l2 t2 -> mentions (l1 ++ l2) (t1 ++ t2).
Proof.
  intros (m1 & P1 & H1) (m2 & P2 & H2). exists (m1 ++ m2). split; [apply Permutation_app; assumption|apply io_app; assumption].
Qed.
Lemma me_behind l a t : mentions l t -> mentions l (a ++ t).
Proof. intros (m & P & H). exists m. split; [exact P|apply io_behind; exact H]. Qed.
Lemma me_before l t a : mentions l t -> mentions l (t ++ a).
Proof. intros H. rewrite <- (app_nil_r l). apply me_app; [exact H|apply me_nil]. Qed.
Lemma me_perm l l' t : Permutation l l' -> mentions l t -> mentions l' t.
Proof. intros P (m & P1 & H). exists m. split; [|exact H]. transitivity l; [symmetry; exact P|exact P1]. Qed.
Lemma me_one x : mentions [x] x.
Proof. exists [x]. split; [reflexivity|]. replace x with ([] ++ x ++ [] : str) at 2 by (cbn [app]; apply app_nil_r). constructor. constructor. Qed.
Lemma me_join sep l : forall ts, Forall2 mentions l ts -> mentions (concat l) (join sep ts).
Proof.
  induction 1 as [|a t l ts H Hs IH]; [apply me_nil|]. cbn [concat]. destruct Hs as [|b u l ts H' Hs].
  - cbn [concat join]. rewrite app_nil_r. exact H.
  - change (join sep (t :: u :: ts)) with (t ++ sep ++ join sep (u :: ts)). apply me_app; [exact H|]. apply me_behind. exact IH.
Qed.
Lemma me_names n : mentions n (qualified n).
Proof.
  assert (H : Forall2 mentions (map (fun x => [x]) n) n) by (induction n; constructor; [apply me_one|assumption]).
  apply (me_join (L "::")) in H. replace (concat (map (fun x => [x]) n)) with n in H; [exact H|].
  clear. induction n; [reflexivity|]. cbn. f_equal. assumption.
Qed.

Section Types.
  Variable E : env.
  Hypothesis Hno : name_only E = false.
  Let ret := negb (no_return_type E).

  (** The names of a type, some in front of the declared name and some behind it. *)
  Definition around (l : list str) (s t : str) : Prop := exists a b, Permutation l (a ++ b) /\ mentions a s /\ mentions b t.
  Lemma around_all l s t : around l s t -> mentions l (s ++ t).
  Proof. intros (a & b & P & H1 & H2). eapply me_perm; [symmetry; exact P|]. apply me_app; assumption. Qed.
  Lemma around_nil s t : around [] s t.
  Proof. exists [], []. split; [reflexivity|]. split; apply me_nil. Qed.
  Lemma around_pre l s t : mentions l s -> around l s t.
  Proof. intros H. exists l, []. rewrite app_nil_r. split; [reflexivity|]. split; [exact H|apply me_nil]. Qed.

  Definition Q (t : ty) : Prop := around (names_of ret t) (pre E t) (post E t).
  Definition P (t : ty) : Prop := Q t /\
    match t with
    | TFun _ _ _ r ps _ _ => match r with Some y => Q y | None => True end /\ match ps with Some l => Forall Q l | None => True end
    | _ => True
    end.

  Lemma me_params ps v : match ps with Some l => Forall Q l | None => True end ->
    mentions (match ps with Some l => concat (map (names_of ret) l) | None => [] end)
      (params_text (match ps with Some l => Some (map (fun t => pre E t ++ post E t) l) | None => None end) v).
  Proof.
    intros H. unfold params_text. cbv zeta. apply me_behind, me_before. destruct ps as [l|]; [|apply me_nil].
    apply me_join. induction H as [|t l H Hl IH]; cbn [map]; constructor; [apply around_all; exact H|exact IH].
  Qed.
  Lemma around_fun r ps v (X C Y Z : str) :
    match r with Some y => Q y | None => True end -> match ps with Some l => Forall Q l | None => True end ->
    around (match r with Some y => if ret then names_of ret y else [] | None => [] end ++
            match ps with Some l => concat (map (names_of ret) l) | None => [] end)
      (X ++ match r with Some y => opt ret (pre E y ++ L " ") | None => [] end ++ C)
      (Y ++ params_text (match ps with Some l => Some (map (fun t => pre E t ++ post E t) l) | None => None end) v ++ Z ++
       match r with Some y => opt ret (post E y) | None => [] end).
  Proof.
    intros Hr Hps. pose proof (me_params ps v Hps) as Hp. revert Hp. generalize (match ps with Some l => concat (map (names_of ret) l) | None => [] end). intros pn Hp.
    assert (Hq : around (match r with Some y => if ret then names_of ret y else [] | None => [] end)
              (match r with Some y => opt ret (pre E y ++ L " ") | None => [] end) (match r with Some y => opt ret (post E y) | None => [] end)).
    { destruct r as [y|]; [|apply around_nil]. unfold Q in Hr. revert Hr. destruct ret; intros Hr; [|apply around_nil]. cbn [opt]. destruct Hr as (a & b & H1 & H2 & H3).
      exists a, b. split; [exact H1|]. split; [apply me_before; exact H2|exact H3]. }
    destruct Hq as (a & b & H1 & H2 & H3). exists a, (pn ++ b). split; [|split].
    - rewrite H1. rewrite <- !app_assoc. apply Permutation_app_head. apply Permutation_app_comm.
    - apply me_behind, me_before. exact H2.
    - apply me_behind. apply me_app; [exact Hp|]. apply me_behind. exact H3.
  Qed.
  Lemma me_sp l x : mentions l x -> mentions l (sp E x). Proof. intros H. unfold sp. apply me_before. exact H. Qed.
  Lemma P_holds t : P t.
  Proof.
    induction t as [q k|q k n|q a cls p IH|q ds el IH|q cc rq r ps v ne IHr IHp|q x] using ty_ind'; (split; [|try exact I]); unfold Q; cbn [names_of].
    - apply around_nil.
    - apply around_pre. cbn [pre]. apply me_behind, me_before, me_names.
    - destruct IH as [Hq Hf]. cbn [pre post].
      assert (Hc : forall w, mentions (match cls with Some n => n | None => [] end)
        (match cls with Some n => qualified n ++ L "::" | None => [] end ++ w)) by (intros w; destruct cls as [n|]; [apply me_before, me_before, me_names|apply me_nil]).
      (* the names of [p] come first in the text *)
      assert (Hg : forall s t, around (names_of ret p) s t -> forall X Y W,
        around (match cls with Some n => n | None => [] end ++ names_of ret p)
          (sp E s ++ X ++ Y ++ match cls with Some n => qualified n ++ L "::" | None => [] end ++ W) t).
      { intros s t (x & y & H1 & H2 & H3) X Y W. exists (x ++ match cls with Some n => n | None => [] end), y. split; [|split; [|exact H3]].
        - rewrite H1, !app_assoc. apply Permutation_app_tail. apply Permutation_app_comm.
        - apply me_app; [apply me_sp; exact H2|]. apply me_behind, me_behind. apply Hc. }
      destruct p as [q' k'|q' k' n'|q' a' cls' p'|q' ds' el'|q' cc' rq' r' ps' v' ne'|q' x']; try (apply Hg; exact Hq).
      + apply Hg. destruct Hq as (x & y & H1 & H2 & H3). exists x, y. split; [exact H1|]. split; [exact H2|apply me_behind; exact H3].
      + apply Hg. cbn [names_of]. destruct Hf as [Hr Hp].
        pose proof (around_fun r' ps' v' [] [] (L ")") (fn_tail E q' ne' rq') Hr Hp) as H. cbn [app] in H. rewrite ?app_nil_r in H.
        rewrite Hno. cbn [negb]. rewrite ?andb_true_r. fold ret. exact H.
    - destruct IH as [(x & y & H1 & H2 & H3) _]. exists x, y. split; [exact H1|]. cbn [pre post]. split; [apply me_before; exact H2|].
      do 3 apply me_behind. exact H3.
    - cbn [pre post]. rewrite Hno. cbn [negb opt]. rewrite ?andb_true_r. fold ret.
      apply (around_fun r ps v [] _ [] (fn_tail E q ne rq)).
      + destruct r as [y|]; [exact (proj1 IHr)|exact I].
      + destruct ps as [l|]; [|exact I]. eapply Forall_impl; [|exact IHp]. intros z Hz. exact (proj1 Hz).
    - split; [destruct r as [y|]; [exact (proj1 IHr)|exact I]|]. destruct ps as [l|]; [|exact I]. eapply Forall_impl; [|exact IHp]. intros z Hz. exact (proj1 Hz).
    - apply around_pre. cbn [pre]. apply me_one.
  Qed.
  Lemma type_around t : around (names_of ret t) (pre E t) (post E t).
  Proof. exact (proj1 (P_holds t)). Qed.
  Lemma variable_mentions a t name l : no_variable_type E = false -> mentions l name ->
    mentions (l ++ names_of ret t) (show_variable E a t name).
  Proof.
    intros Hv Hl. unfold show_variable. rewrite Hv, Hno. cbn [negb andb]. do 2 apply me_behind.
    destruct (type_around t) as (x & y & H1 & H2 & H3). apply (me_perm (x ++ l ++ y)).
    - rewrite H1, !app_assoc. apply Permutation_app_tail, Permutation_app_comm.
    - apply me_app; [apply me_sp; exact H2|]. apply me_app; assumption.
  Qed.
  Lemma function_mentions c a t name l : mentions l name -> mentions (l ++ names_of ret t) (show_function E c a (Some t) name).
  Proof.
    intros Hl. unfold show_function. destruct (type_around t) as (x & y & H1 & H2 & H3). apply (me_perm (x ++ l ++ y)).
    - rewrite H1, !app_assoc. apply Permutation_app_tail, Permutation_app_comm.
    - apply me_app; [apply me_sp; do 3 apply me_behind; exact H2|]. apply me_app; [exact Hl|]. apply me_behind. exact H3.
  Qed.
End Types.

(** Every name in a type is in its text; names in return types unless these are suppressed. *)
Theorem type_names_printed : forall (E : env) (t : ty), name_only E = false ->
  mentions (names_of (negb (no_return_type E)) t) (show E t).
Proof. intros E t H. apply around_all, type_around. exact H. Qed.

Lemma me_qualified ss x : mentions (ss ++ [x]) (qualified (ss ++ [x])). Proof. apply me_names. Qed.
Lemma me_dynamic l d v x : mentions l x -> mentions l (dynamic_text d v x).
Proof. intros H. unfold dynamic_text. do 2 apply me_behind. apply me_before. exact H. Qed.
Lemma show_function_name E c a sig name l : mentions l name -> mentions l (show_function E c a sig name).
Proof. intros H. unfold show_function. apply me_behind, me_before. exact H. Qed.
Lemma show_variable_name E a t name l : mentions l name -> mentions l (show_variable E a t name).
Proof. intros H. unfold show_variable. do 2 apply me_behind. destruct (_ && _); [apply me_behind, me_before|]; exact H. Qed.
Lemma qualified_app a b : a <> [] -> b <> [] -> qualified (a ++ b) = qualified a ++ L "::" ++ qualified b.
Proof.
  intros Ha Hb. unfold qualified. induction a as [|x a IH]; [contradiction|]. destruct a as [|y a].
  - destruct b as [|z b]; [contradiction|]. reflexivity.
  - change ((x :: y :: a) ++ b) with (x :: (y :: a) ++ b). change (join (L "::") (x :: y :: a)) with (x ++ L "::" ++ join (L "::") (y :: a)).
    rewrite <- !app_assoc, <- IH by discriminate. reflexivity.
Qed.

Section Demangled.
  Variable E : env.
  Let E' := code_limits E.
  Lemma symbol_out t x id G' rest out : symbol E' empty_tab t x id G' -> rust_str (t ++ rest) -> demangle E (t ++ rest) = Ok out -> out = x.
  Proof.
    intros H Hs Hd. destruct (decorated_accepted E (t ++ rest) x Hs (de_symbol _ t x id G' rest H)) as [Hr|[_ Hr]]; rewrite Hd in Hr; [|discriminate].
    destruct (outcome_ok _ _ (eq_sym Hr)). assumption.
  Qed.
  Lemma function_names k a sig name l : name_only E = false -> mentions l name ->
    mentions (l ++ names_in (negb (no_return_type E)) (match sig with Some t => [t] | None => [] end)) (show_function E' k a sig name).
  Proof.
    intros Hno Hl. destruct sig as [t|]; unfold names_in; cbn [map concat]; rewrite app_nil_r.
    - apply (function_mentions E' Hno k a t name l Hl).
    - apply show_function_name. exact Hl.
  Qed.
End Demangled.

(** Nothing that is named in an accepted text is left out of the answer, nor printed less often
    than it is named. *)
Theorem no_name_is_dropped : forall (E : env) (s out : str) (path : list str) (ys : list ty),
  rust_str s -> declaration (code_limits E) s path ys -> demangle E s = Ok out ->
  name_only E = false -> no_variable_type E = false ->
  mentions (path ++ names_in (negb (no_return_type E)) ys) out.
Proof.
  intros E s out path ys Hs Hd Ho Hno Hv. destruct Hd as
    [n i G1 c ss G2 v a y G3 x rest H1 H2 H3 H4|n i G1 c ss G2 f k a sig G3 x rest H1 H2 H3 H4|k nm c ss G1 far m qc qv t n G2 rest H1 H2 H3 H4
    |d n i G1 c ss G2 f k a sig G3 x rest H1 H2 H3 H4 H5|d known n i G1 c ss G2 v acc y G3 x f k a sig G4 rest H1 H2 H3 H4 H5 H6|t y G' H|t y G' H].
  - rewrite (symbol_out E _ _ _ _ _ _ (sy_variable _ _ _ _ _ _ _ _ _ _ _ _ _ H1 H2 H3 H4) Hs Ho).
    unfold names_in. cbn [map concat]. rewrite app_nil_r. apply (variable_mentions (code_limits E) Hno a y); [exact Hv|apply me_qualified].
  - rewrite (symbol_out E _ _ _ _ _ _ (sy_function _ _ _ _ _ _ _ _ _ _ _ _ _ _ H1 H2 H3 H4) Hs Ho). apply function_names; [exact Hno|apply me_qualified].
  - rewrite (symbol_out E _ _ _ _ _ _ (sy_table_for _ _ _ _ _ _ _ _ m qc qv _ _ _ H1 H2 H3 H4) Hs Ho).
    unfold names_in. cbn [map concat]. rewrite app_nil_r. unfold show_table. apply me_behind. rewrite (app_assoc ss [nm] n). apply me_app; [apply me_qualified|].
    apply me_behind, me_before. apply me_names.
  - rewrite (symbol_out E _ _ _ _ _ _ (sy_dynamic _ _ d _ _ _ _ _ _ _ _ _ _ _ _ H1 H2 H3 H4 H5) Hs Ho). apply function_names; [exact Hno|apply me_dynamic, me_qualified].
  - rewrite (symbol_out E _ _ _ _ _ _ (sy_dynamic_variable _ _ d known _ _ _ _ _ _ _ _ _ _ _ _ _ _ _ _ H1 H2 H3 H4 H5 H6) Hs Ho).
    unfold names_in. cbn [map concat]. rewrite app_assoc. apply (function_names E); [exact Hno|]. apply me_dynamic.
    apply (variable_mentions (code_limits E) Hno acc y); [exact Hv|apply me_qualified].
  - pose proof (typeinfo_type E t y G' H Hs) as Hr. rewrite Ho in Hr. destruct Hr as [Hr|[_ Hr]]; [|discriminate Hr]. destruct (outcome_ok _ _ (eq_sym Hr)) as [-> _].
    unfold names_in. cbn [map concat app]. rewrite app_nil_r. unfold show_type_name. change (name_only (code_limits E)) with (name_only E). rewrite Hno.
    apply me_before, me_sp. apply (type_names_printed (code_limits E)). exact Hno.
  - pose proof (type_descriptor E t y G' H Hs) as Hr. rewrite Ho in Hr. destruct Hr as [Hr|[_ Hr]]; [|discriminate Hr]. destruct (outcome_ok _ _ (eq_sym Hr)) as [-> _].
    unfold names_in. cbn [map concat app]. rewrite app_nil_r.
    apply (variable_mentions (code_limits E) Hno None y _ [] Hv). apply me_nil.
Qed.
(** Under every set of flags the qualified name itself is there. *)
Theorem name_under_all_flags : forall (E : env) (s out : str) (path : list str) (ys : list ty),
  rust_str s -> declaration (code_limits E) s path ys -> demangle E s = Ok out -> mentions path out.
Proof.
  intros E s out path ys Hs Hd Ho. destruct Hd as
    [n i G1 c ss G2 v a y G3 x rest H1 H2 H3 H4|n i G1 c ss G2 f k a sig G3 x rest H1 H2 H3 H4|k nm c ss G1 far m qc qv t n G2 rest H1 H2 H3 H4
    |d n i G1 c ss G2 f k a sig G3 x rest H1 H2 H3 H4 H5|d known n i G1 c ss G2 v acc y G3 x f k a sig G4 rest H1 H2 H3 H4 H5 H6|t y G' H|t y G' H];
    try apply me_nil.
  - rewrite (symbol_out E _ _ _ _ _ _ (sy_variable _ _ _ _ _ _ _ _ _ _ _ _ _ H1 H2 H3 H4) Hs Ho). apply show_variable_name, me_qualified.
  - rewrite (symbol_out E _ _ _ _ _ _ (sy_function _ _ _ _ _ _ _ _ _ _ _ _ _ _ H1 H2 H3 H4) Hs Ho). apply show_function_name, me_qualified.
  - rewrite (symbol_out E _ _ _ _ _ _ (sy_table_for _ _ _ _ _ _ _ _ m qc qv _ _ _ H1 H2 H3 H4) Hs Ho).
    unfold show_table. apply me_behind. rewrite (app_assoc ss [nm] n). apply me_app; [apply me_qualified|]. apply me_behind, me_before. apply me_names.
  - rewrite (symbol_out E _ _ _ _ _ _ (sy_dynamic _ _ d _ _ _ _ _ _ _ _ _ _ _ _ H1 H2 H3 H4 H5) Hs Ho). apply show_function_name, me_dynamic, me_qualified.
  - rewrite (symbol_out E _ _ _ _ _ _ (sy_dynamic_variable _ _ d known _ _ _ _ _ _ _ _ _ _ _ _ _ _ _ _ H1 H2 H3 H4 H5 H6) Hs Ho).
    apply show_function_name, me_dynamic, show_variable_name, me_qualified.
Qed.

(** The hypotheses are met: a variable of function pointer type in a namespace,
    [struct S (__cdecl *ns::p)(class A, class A)]. *)
Definition sample_text : str := L "?p@ns@@3P6A?AUS@@VA@@0@ZEA".
Example sample_demangled : demangle (env_of 0) sample_text = Ok (L "struct S (__cdecl *ns::p)(class A, class A)").
Proof. vm_compute. reflexivity. Qed.
Example sample_declared : forall flags, exists ys, declaration (code_limits (env_of flags)) sample_text [L "ns"; L "p"] ys /\
  names_in true ys = [L "S"; L "A"; L "A"].
Proof.
  intros flags. eexists. split.
  - set (E := code_limits (env_of flags)).
    assert (Hi : forall x, In x [L "p"; L "ns"; L "S"; L "A"] -> ident x).
    { intros x [<-|[<-|[<-|[<-|[]]]]]; (split; [repeat constructor|]); (split; [intros H; repeat (destruct H as [H|H]; [discriminate|]); exact H|]); (split; [reflexivity|discriminate]). }
    assert (Hu := us_base E _ _ _ _ (ub_name empty_tab (L "p") (Hi _ (or_introl eq_refl)))).
    assert (Hc := ch_cons E _ _ _ _ _ _ _ (pc_name E (remember (L "p") empty_tab) (L "ns") (Hi _ (or_intror (or_introl eq_refl)))) (ch_end E _)).
    set (G1 := remember (L "ns") (remember (L "p") empty_tab)) in *.
    assert (Hr := re_some E _ _ _ _ (rt_quals E false false false _ _ _ _ (bo_tag E G1 TKStruct _ _ _ (qn_intro E _ _ _ _ _ _ _
      (tn_name E G1 (L "S") (Hi _ (or_intror (or_intror (or_introl eq_refl))))) (ch_end E _))))).
    set (G2 := remember (L "S") G1) in *.
    assert (Hb := bo_tag E G2 TKClass _ _ _ (qn_intro E _ _ _ _ _ _ _
      (tn_name E G2 (L "A") (Hi _ (or_intror (or_intror (or_intror (or_introl eq_refl)))))) (ch_end E _))).
    assert (Hq := pa_long E _ _ _ _ Hb ltac:(cbn; lia)).
    assert (Hz := pa_ref E (remember_param (TTag Q_None TKClass ([] ++ [L "A"])) (remember (L "A") G2)) 0 (TTag Q_None TKClass ([] ++ [L "A"])) ltac:(lia) eq_refl).
    assert (Hp := ps_cons E _ _ _ _ _ _ _ Hq (ps_cons E _ _ _ _ _ _ _ Hz (ps_nil E _))).
    assert (Hl := pl_fixed E _ _ _ _ Hp ltac:(intros r Hx; discriminate Hx)).
    assert (Hf := fn_intro E false _ _ _ _ (ch "A") _ _ _ _ _ _ _ _ false th_none (cc_known (ch "A") Cdecl ltac:(left; reflexivity)) Hr Hl).
    assert (Ht := bo_fn_pointer E _ _ _ _ _ _ _ (pk_pointer false false) Hf).
    assert (Hv := va_pointer E _ _ _ _ _ _ _ _ true false false false false false sc_global Ht).
    exact (dn_variable E _ _ _ _ _ _ _ _ _ _ _ [] Hu Hc Hv (it_text _ _ _ _)).
  - reflexivity.
Qed.
(** Printed the two classes [A] and the struct [S] are both there; the answer without one of them
    would not do. *)
Example sample_mentions : mentions [L "ns"; L "p"; L "S"; L "A"; L "A"] (L "struct S (__cdecl *ns::p)(class A, class A)").
Proof.
  destruct (sample_declared 0) as (ys & Hd & Hn).
  pose proof (no_name_is_dropped (env_of 0) sample_text _ _ ys ltac:(repeat constructor) Hd sample_demangled eq_refl eq_refl) as H.
  change (negb (no_return_type (env_of 0))) with true in H. rewrite Hn in H. exact H.
Qed.
Lemma in_order_length l t : in_order l t -> length (concat l) <= length t.
Proof. induction 1; cbn; [lia|]. rewrite !app_length. lia. Qed.
Example sample_short : ~ mentions [L "ns"; L "p"; L "S"; L "A"; L "A"] (L "ns::p").
Proof.
  intros (l & P & H). apply in_order_length in H. cbn in H.
  assert (Hl : length (concat l) = 6); [|lia].
  assert (Hs : forall a b : list str, Permutation a b -> length (concat a) = length (concat b)).
  { induction 1; cbn; rewrite ?app_length; lia. }
  rewrite <- (Hs _ _ P). reflexivity.
Qed.
(** Without return types, the names in return types are not owed: the struct is hidden. *)
Example sample_hidden : demangle (env_of 16) sample_text = Ok (L "(__cdecl *ns::p)(class A, class A)").
Proof. vm_compute. reflexivity. Qed.
Print Assumptions type_names_printed.
Print Assumptions no_name_is_dropped.
Print Assumptions name_under_all_flags.
