(** C42: what the suppression flags hide.  Two symbols that differ only in what the flags suppress
    have the same text. *)
From Verif Require Import Parser Api Utf8 Literal Number Flags Mangle Safety Short Trip Specials Accepted Unique Show Grammar.

(** ** Specification *)
Section Forget.
  Variable E : env.
  (** The documented effect of each flag on a type, as forgetting.  ([__ptr64] is never shown;
      [NAME_ONLY] implies hiding tags and qualifiers of [this].) *)
  Definition hide_tags : bool := no_tag_specifier E || name_only E.
  Definition hide_this : bool := no_this_type E || name_only E.
  Definition hide_cc : bool := no_calling_convention E || no_ms_keywords E.
  Definition without (b : bool) (m q : N) : N := if b then N.ldiff q m else q.
  Definition forget_ptr (q : N) : N := N.ldiff (without (no_ms_keywords E) Q_Unaligned q) Q_Pointer64.
  Definition forget_this (q : N) : N :=
    if hide_this then 0%N
    else N.ldiff (without (no_ms_keywords E) (N.lor Q_Restrict Q_Unaligned) q) Q_Pointer64.
  Fixpoint forget (t : ty) : ty :=
    match t with
    | TPrim q k => TPrim q k
    | TTag q k n => TTag q (if hide_tags then TKClass else k) n
    | TPtr q a cls p => TPtr (forget_ptr q) a cls (forget p)
    | TArr q ds el => TArr q ds (forget el)
    | TFun q cc rq ret ps v ne =>
      TFun (forget_this q) (if hide_cc then None else cc) (if hide_this then None else rq)
        (if no_return_type E then None else match ret with Some r => Some (forget r) | None => None end)
        (match ps with Some l => Some (map forget l) | None => None end) v ne
    | TCustom q x => TCustom 0%N x
    end.

  (** What a symbol declares: a variable, a function (thunks included), a table of a class, the
      descriptor or the name of a type. *)
  Inductive entity :=
  | EVariable (a : option access) (t : ty) (name : str)
  | EFunction (k : fn_class) (j : adjustment) (sig : option ty) (name : str)
  | ETable (q : N) (name : str) (target : option (list str))
  | EDescriptor (t : ty)
  | ETypeName (t : ty).
  Definition text_of (e : entity) : str :=
    match e with
    | EVariable a t name => show_variable E a t name
    | EFunction k j sig name => show_function E k j sig name
    | ETable q name target => show_table E q name target
    | EDescriptor t => show_variable E None t (L "`RTTI Type Descriptor'")
    | ETypeName t => show_type_name E t
    end.
  Definition hide_access : bool := no_access_specifier E || name_only E.
  Definition hide_member : bool := no_member_type E || name_only E.
  Definition hide_variable : bool := no_variable_type E || name_only E.
  (** What is left of a declaration to see. *)
  Inductive visible :=
  | VVariable (a : option access) (static : bool) (t : option ty) (name : str)
  | VFunction (a : option access) (static virtual externc : bool) (j : adjustment) (sig : option ty) (name : str)
  | VTable (q : N) (name : str) (target : option (list str))
  | VDescriptor (t : option ty)
  | VTypeName (t : ty).
  Definition seen_access (a : option access) : option access := if hide_access then None else a.
  Definition seen_member (b : bool) : bool := negb hide_member && b.
  Definition seen_variable (t : ty) : option ty := if hide_variable then None else Some (forget t).
  Definition is_member (a : option access) : bool := match a with Some _ => true | None => false end.
  (** Under [NAME_ONLY] a function keeps its name, its adjustment and [noexcept]. *)
  Definition seen_sig (t : ty) : ty :=
    match forget t with
    | TFun q cc rq ret ps v ne => if name_only E then TFun 0%N None None None None false ne else TFun q cc rq ret ps v ne
    | t => t
    end.
  Definition seen_adjustment (j : adjustment) : adjustment :=
    match j with
    | VirtualCall cc => if name_only E then NoAdjustment else VirtualCall (if hide_cc then None else cc)
    | j => j
    end.
  Definition seen (e : entity) : visible :=
    match e with
    | EVariable a t name => VVariable (seen_access a) (seen_member (is_member a)) (seen_variable t) name
    | EFunction k j sig name =>
      VFunction (seen_access (f_access k)) (seen_member (f_static k)) (seen_member (f_virtual k)) (seen_member (f_externc k))
        (seen_adjustment j) (match sig with Some t => Some (seen_sig t) | None => None end) name
    | ETable q name target => VTable (if name_only E then 0%N else q) name target
    | EDescriptor t => VDescriptor (seen_variable t)
    | ETypeName t => VTypeName (forget t)
    end.

  (** The input [s] stands for the entity [e]: readings of C33, by what they declare. *)
  Inductive stands_for : str -> entity -> Prop :=
  | sf_variable n i G1 c ss G2 v a y G3 x rest : usym E empty_tab n i G1 -> chain E G1 c ss G2 -> variable E G2 v a y G3 ->
      id_text E i ss None x -> stands_for ((L "?" ++ n ++ c ++ v) ++ rest) (EVariable a y (qualified (ss ++ [x])))
  | sf_function n i G1 c ss G2 f k j sig G3 x rest : usym E empty_tab n i G1 -> chain E G1 c ss G2 -> function E G2 f k j sig G3 ->
      id_text E i ss (match sig with Some (TFun _ _ _ r _ _ _) => r | _ => None end) x ->
      stands_for ((L "?" ++ n ++ c ++ f) ++ rest) (EFunction k j sig (qualified (ss ++ [x])))
  | sf_vcall c ss G1 t off l cc rest : chain E empty_tab c ss G1 -> num_text t off -> cc_code l cc ->
      stands_for ((L "??_9" ++ c ++ L "$B" ++ t ++ L "A" ++ [l]) ++ rest)
        (EFunction (FnClass None false false false) (VirtualCall cc) None (qualified (ss ++ [vcall_text E off])))
  | sf_table k nm c ss G1 far m qc qv rest : In (k, nm) table_codes -> chain E empty_tab c ss G1 -> In far (L "67") ->
      stands_for ((L "??" ++ k ++ c ++ [far; cv_code m qc qv] ++ L "@") ++ rest) (ETable (cvq qc qv) (qualified (ss ++ [nm])) None)
  | sf_table_for k nm c ss G1 far m qc qv t n G2 rest : In (k, nm) table_codes -> chain E empty_tab c ss G1 -> In far (L "67") -> qname E G1 t n G2 ->
      stands_for ((L "??" ++ k ++ c ++ [far; cv_code m qc qv] ++ t) ++ rest) (ETable (cvq qc qv) (qualified (ss ++ [nm])) (Some n))
  | sf_descriptor t y G' : rtype E empty_tab t y G' -> stands_for (L "??_R0" ++ t ++ L "@8") (EDescriptor y)
  | sf_type_name t y G' : rtype E empty_tab t y G' -> stands_for (L "." ++ t) (ETypeName y).
End Forget.

(** ** Proofs *)
Section Proofs.
  Variable E : env.
  Notation pre := (pre E). Notation post := (post E). Notation show := (show E).

  Lemma contains_ldiff q m n : N.testbit m n = false -> contains (N.ldiff q m) (2 ^ n) = contains q (2 ^ n).
  Proof. intros H. rewrite !contains_bit, N.ldiff_spec, H. apply andb_true_r. Qed.
  Lemma contains_without b q m n : N.testbit m n = false -> contains (without b m q) (2 ^ n) = contains q (2 ^ n).
  Proof. intros H. destruct b; [apply contains_ldiff; exact H|reflexivity]. Qed.
  Lemma words_same q q' : contains q Q_Const = contains q' Q_Const -> contains q Q_Volatile = contains q' Q_Volatile -> contains q Q_Restrict = contains q' Q_Restrict ->
    qual_words E q = qual_words E q'.
  Proof. intros H1 H2 H3. unfold qual_words. rewrite H1, H2, H3. reflexivity. Qed.
  Lemma forget_ptr_words q : quals_alone E (forget_ptr E q) = quals_alone E q.
  Proof.
    unfold quals_alone. f_equal. apply words_same; unfold forget_ptr;
      [change Q_Const with (2 ^ 0)%N|change Q_Volatile with (2 ^ 1)%N|change Q_Restrict with (2 ^ 5)%N];
      rewrite contains_ldiff by reflexivity; apply contains_without; reflexivity.
  Qed.
  Lemma forget_ptr_unaligned q : negb (no_ms_keywords E) && contains (forget_ptr E q) Q_Unaligned = negb (no_ms_keywords E) && contains q Q_Unaligned.
  Proof.
    destruct (no_ms_keywords E) eqn:H; [reflexivity|]. unfold forget_ptr. rewrite H. cbn [without negb andb].
    change Q_Unaligned with (2 ^ 4)%N. apply contains_ldiff. reflexivity.
  Qed.
  Lemma forget_tail q ne rq : fn_tail E (forget_this E q) ne (if hide_this E then None else rq) = fn_tail E q ne rq.
  Proof.
    unfold fn_tail, forget_this. assert (Hh : hide_this E = negb (negb (no_this_type E) && negb (name_only E))).
    { unfold hide_this. destruct (no_this_type E), (name_only E); reflexivity. }
    rewrite Hh. destruct (negb (no_this_type E) && negb (name_only E)); [|reflexivity]. cbn [opt negb]. f_equal.
    change Q_Const with (2 ^ 0)%N. change Q_Volatile with (2 ^ 1)%N. rewrite !(contains_ldiff _ Q_Pointer64) by reflexivity. rewrite !contains_without by reflexivity. f_equal. f_equal.
    destruct (no_ms_keywords E); [reflexivity|]. cbn [opt negb without]. change Q_Restrict with (2 ^ 5)%N. change Q_Unaligned with (2 ^ 4)%N. rewrite !contains_ldiff by reflexivity. reflexivity.
  Qed.
  Lemma hidden_cc cc : (match (if hide_cc E then None else cc) with Some c => opt (show_cc E) (cc_text E c ++ L " ") | None => [] end) =
    match cc with Some c => opt (show_cc E) (cc_text E c ++ L " ") | None => [] end.
  Proof.
    assert (H : show_cc E = negb (hide_cc E)) by (unfold show_cc, hide_cc; destruct (no_calling_convention E), (no_ms_keywords E); reflexivity).
    rewrite H. destruct (hide_cc E); [|reflexivity]. destruct cc; reflexivity.
  Qed.
  Lemma hidden_cc' cc : (match (if hide_cc E then None else cc) with Some c => opt (show_cc E && negb (name_only E)) (cc_text E c) | None => [] end) =
    match cc with Some c => opt (show_cc E && negb (name_only E)) (cc_text E c) | None => [] end.
  Proof.
    assert (H : show_cc E = negb (hide_cc E)) by (unfold show_cc, hide_cc; destruct (no_calling_convention E), (no_ms_keywords E); reflexivity).
    rewrite H. destruct (hide_cc E); [|reflexivity]. destruct cc; reflexivity.
  Qed.
  Let same (t : ty) : Prop := pre (forget E t) = pre t /\ post (forget E t) = post t.
  Lemma same_list l : Forall same l -> map (fun t => pre t ++ post t) (map (forget E) l) = map (fun t => pre t ++ post t) l.
  Proof. induction 1 as [|t l [H1 H2] _ IH]; [reflexivity|]. cbn [map]. rewrite H1, H2, IH. reflexivity. Qed.
  Lemma same_params ps : match ps with Some l => Forall same l | None => True end ->
    (match (match ps with Some l => Some (map (forget E) l) | None => None end) with Some l => Some (map (fun t => pre t ++ post t) l) | None => None end) =
    match ps with Some l => Some (map (fun t => pre t ++ post t) l) | None => None end.
  Proof. destruct ps as [l|]; [|reflexivity]. intros H. rewrite same_list by exact H. reflexivity. Qed.
  Lemma forget_shows t : same t /\ match t with TFun q cc rq r ps v ne => match r with Some r => same r | None => True end /\ match ps with Some l => Forall same l | None => True end | _ => True end.
  Proof.
    induction t as [q k|q k n|q a cls p IH|q ds el IH|q cc rq r ps v ne IHr IHp|q x] using ty_ind'.
    - repeat split.
    - split; [|exact I]. split; [|reflexivity]. cbn [forget Show.pre]. f_equal. unfold hide_tags. destruct (no_tag_specifier E), (name_only E); reflexivity.
    - split; [|exact I]. destruct IH as [[I1 I2] I3]. split.
      + cbn [forget Show.pre]. rewrite forget_ptr_words, forget_ptr_unaligned. destruct p as [| | | |q' cc rq r ps v ne|]; cbn [forget] in I1 |- *; rewrite ?I1; try reflexivity.
        rewrite hidden_cc. f_equal. f_equal. destruct I3 as [I3 _]. destruct r as [r|]; destruct (no_return_type E); try reflexivity. destruct I3 as [-> _]. reflexivity.
      + cbn [forget Show.post]. destruct p as [| | | |q' cc rq r ps v ne|]; cbn [forget] in I2 |- *; rewrite ?I2; try reflexivity.
        destruct I3 as [I3 I4]. apply f_equal2; [reflexivity|]. apply f_equal2; [apply f_equal2; [exact (same_params ps I4)|reflexivity]|]. apply f_equal2; [apply forget_tail|].
        destruct r as [r|]; destruct (no_return_type E) eqn:Hr; try reflexivity. destruct I3 as [_ ->]. reflexivity.
    - split; [|exact I]. destruct IH as [[I1 I2] _]. split; cbn [forget Show.pre Show.post]; [rewrite I1|rewrite I2]; reflexivity.
    - assert (Jr : match r with Some r => same r | None => True end) by (destruct r; [apply IHr|exact I]).
      assert (Jp : match ps with Some l => Forall same l | None => True end) by (destruct ps as [l|]; [|exact I]; eapply Forall_impl; [|exact IHp]; intros t Ht; apply Ht).
      split; [|split; assumption]. split.
      + cbn [forget Show.pre]. rewrite hidden_cc'. f_equal. destruct r as [r|]; destruct (no_return_type E) eqn:Hr; try reflexivity. destruct Jr as [-> _]. reflexivity.
      + cbn [forget Show.post]. apply f_equal2; [destruct (negb (name_only E)); [|reflexivity]; cbn [opt]; apply f_equal2; [exact (same_params ps Jp)|reflexivity]|]. apply f_equal2; [apply forget_tail|]. destruct r as [r|]; destruct (no_return_type E) eqn:Hr; try reflexivity. destruct Jr as [_ ->]. reflexivity.
    - repeat split.
  Qed.
  Lemma forget_pre t : pre (forget E t) = pre t. Proof. apply forget_shows. Qed.
  Lemma forget_post t : post (forget E t) = post t. Proof. apply forget_shows. Qed.
  Lemma forget_show t : show (forget E t) = show t. Proof. unfold Show.show. rewrite forget_pre, forget_post. reflexivity. Qed.

  (** The text is a function of what is visible. *)
  Definition visible_text (v : visible) : str :=
    match v with
    | VVariable a static t name =>
      show_access E a ++ show_member_type E static false false ++ match t with Some t => sp E (pre t) ++ name ++ post t | None => name end
    | VFunction a static virtual externc j sig name => show_function E (FnClass a static virtual externc) j sig name
    | VTable q name target => show_table E q name target
    | VDescriptor t => match t with Some t => sp E (pre t) ++ L "`RTTI Type Descriptor'" ++ post t | None => L "`RTTI Type Descriptor'" end
    | VTypeName t => show_type_name E t
    end.
  Lemma seen_access_text a : show_access E (seen_access E a) = show_access E a.
  Proof. unfold show_access, seen_access, hide_access. destruct (no_access_specifier E), (name_only E); destruct a; reflexivity. Qed.
  Lemma seen_member_text s v x : show_member_type E (seen_member E s) (seen_member E v) (seen_member E x) = show_member_type E s v x.
  Proof. unfold show_member_type, seen_member, hide_member. destruct (no_member_type E), (name_only E); reflexivity. Qed.
  Lemma seen_variable_text t name : (match seen_variable E t with Some t => sp E (pre t) ++ name ++ post t | None => name end) =
    if negb (no_variable_type E) && negb (name_only E) then sp E (pre t) ++ name ++ post t else name.
  Proof.
    unfold seen_variable, hide_variable. destruct (no_variable_type E), (name_only E); try reflexivity. cbn [orb negb andb]. rewrite forget_pre, forget_post. reflexivity.
  Qed.
  Lemma seen_sig_text t : pre (seen_sig E t) = pre t /\ post (seen_sig E t) = post t.
  Proof.
    rewrite <- (forget_pre t), <- (forget_post t). unfold seen_sig. destruct (forget E t) as [| | | |q cc rq r ps v ne|]; try (split; reflexivity).
    destruct (name_only E) eqn:Hn; [|split; reflexivity]. cbn [Show.pre Show.post]. unfold fn_tail. rewrite Hn. cbn [negb]. rewrite !andb_false_r. cbn [opt app].
    split; [destruct r, cc; reflexivity|]. f_equal. destruct r; reflexivity.
  Qed.
  Lemma text_of_visible e : text_of E e = visible_text (seen E e).
  Proof.
    destruct e as [a t name|k j sig name|q name target|t|t]; cbn [text_of seen visible_text].
    - unfold show_variable. rewrite seen_access_text, seen_variable_text. f_equal. f_equal.
      pose proof (seen_member_text (is_member a) false false) as H. unfold seen_member in H at 2 3. rewrite !andb_false_r in H. symmetry. exact H.
    - unfold show_function. cbn [f_access f_static f_virtual f_externc]. rewrite seen_access_text, seen_member_text.
      assert (Hj : is_thunk (seen_adjustment E j) && negb (name_only E) = is_thunk j && negb (name_only E) /\ adjustment_text (seen_adjustment E j) = adjustment_text j /\
        untyped_pre E (seen_adjustment E j) = untyped_pre E j).
      { destruct j as [| | | |cc]; try (repeat split; reflexivity). cbn [seen_adjustment]. destruct (name_only E) eqn:Hn.
        - cbn [is_thunk negb adjustment_text untyped_pre]. rewrite Hn, !andb_false_r. repeat split; try reflexivity. destruct cc; reflexivity.
        - repeat split; try reflexivity. cbn [untyped_pre]. apply hidden_cc'. }
      destruct Hj as (-> & -> & H3). destruct sig as [t|]; [|rewrite H3; reflexivity]. destruct (seen_sig_text t) as [-> ->]. reflexivity.
    - unfold show_table. destruct (name_only E); reflexivity.
    - unfold show_variable. rewrite seen_variable_text. unfold show_access, show_member_type. cbn [opt app].
      destruct (negb (no_access_specifier E) && negb (name_only E)), (negb (no_member_type E) && negb (name_only E)); reflexivity.
    - unfold show_type_name. rewrite forget_show. reflexivity.
  Qed.
  Lemma stands_for_reading s e : stands_for E s e -> reading E s (text_of E e).
  Proof.
    intros H. destruct H; cbn [text_of].
    - eapply de_symbol. eapply sy_variable; eassumption.
    - eapply de_symbol. eapply sy_function; eassumption.
    - eapply de_symbol. eapply sy_vcall; eassumption.
    - eapply de_symbol. eapply sy_table; eassumption.
    - eapply de_symbol. eapply sy_table_for; eassumption.
    - eapply de_descriptor. eassumption.
    - eapply de_typeinfo. eassumption.
  Qed.
End Proofs.

(** C42.  When the visible parts of what two inputs declare are equal, the calls have the same
    outcome: the same text, or [Io OutOfMemory] for both.  (Inputs of more than 1638 characters may
    be rejected as too complex.) *)
Theorem flags_hide : forall (E : env) (s1 s2 : str) (e1 e2 : entity), rust_str s1 -> rust_str s2 ->
  stands_for (code_limits E) s1 e1 -> stands_for (code_limits E) s2 e2 -> seen E e1 = seen E e2 ->
  demangle E s1 = demangle E s2 \/
  (1638 < length s1 /\ demangle E s1 = Err MaliciousInput) \/ (1638 < length s2 /\ demangle E s2 = Err MaliciousInput).
Proof.
  intros E s1 s2 e1 e2 H1 H2 D1 D2 Hs. apply stands_for_reading in D1, D2.
  assert (Ht : text_of (code_limits E) e1 = text_of (code_limits E) e2).
  { rewrite !text_of_visible. change (seen (code_limits E)) with (seen E). rewrite Hs. reflexivity. }
  rewrite <- Ht in D2. destruct (decorated_accepted E s1 _ H1 D1) as [R1|R1]; [|right; left; exact R1].
  destruct (decorated_accepted E s2 _ H2 D2) as [R2|R2]; [|right; right; exact R2]. left. congruence.
Qed.
Print Assumptions flags_hide.

(** Two members of a class that differ in access, calling convention, return type and qualifiers
    of [this]; under the four flags for these they cannot be told apart. *)
Definition four_flags : env := env_of 85.
Section Example.
  Notation E := (code_limits four_flags).
  Let name (c : N) : ident [c] <-> scalar c = true /\ c <> ch "@" /\ is_digit c = false /\ c <> ch "?".
  Proof. unfold ident, ustr. cbn. split; [intros (H1 & H2 & H3 & H4); inversion H1; intuition|intros (H1 & H2 & H3 & H4); intuition]. Qed.
  Let G := remember (L "A") (remember (L "f") empty_tab).
  Lemma example_head : usym E empty_tab (L "f@") (IText (L "f")) (remember (L "f") empty_tab) /\ chain E (remember (L "f") empty_tab) (L "A@@") [L "A"] G.
  Proof.
    split; [apply us_base, (ub_name empty_tab (L "f")), (name (ch "f")); repeat split; discriminate|].
    apply (ch_cons E _ (L "A@") (L "A") G (L "@") [] G); [|apply ch_end]. apply (pc_name E _ (L "A")), (name (ch "A")). repeat split; discriminate.
  Qed.
  Lemma example_function a this_text q l cc rt r : cc_code l cc -> rett E G rt (Some r) G -> this_code true this_text q None ->
    stands_for E ((L "?" ++ L "f@" ++ L "A@@" ++ (opt false (L "$$J0") ++ [class_letter a 0 false] ++ (this_text ++ [l] ++ rt ++ L "X" ++ throw_code false))) ++ [])
      (EFunction (FnClass (Some a) false false false) NoAdjustment (Some (TFun q cc None (Some r) None false false)) (qualified ([L "A"] ++ [L "f"]))).
  Proof.
    intros Hc Hr Ht. destruct example_head as [H1 H2]. eapply sf_function; [exact H1|exact H2| |apply it_text].
    eapply (fu_typed E false G); [apply cl_plain|]. eapply fn_intro; [exact Ht|exact Hc|exact Hr|apply pl_void].
  Qed.
  Example hidden_example :
    (exists e1 e2, stands_for E (L "?f@A@@QEBAHXZ") e1 /\ stands_for E (L "?f@A@@AAG_NXZ") e2 /\ e1 <> e2 /\ seen four_flags e1 = seen four_flags e2) /\
    demangle four_flags (L "?f@A@@QEBAHXZ") = Ok (L "A::f(void)") /\ demangle four_flags (L "?f@A@@AAG_NXZ") = Ok (L "A::f(void)").
  Proof.
    split; [|split; vm_compute; reflexivity].
    do 2 eexists. split; [|split; [|split]].
    - eapply (example_function Public (L "EB") _ (ch "A") (Some Cdecl) (L "H") (TPrim Q_None Int)); [apply cc_known; left; reflexivity| |].
      + apply re_some, rt_plain; [apply (bo_prim E G Int)|discriminate].
      + apply (th_quals true false false [] None false true false rf_none).
    - eapply (example_function Private (L "A") _ (ch "G") (Some Stdcall) (L "_N") (TPrim Q_None Bool_)); [apply cc_known; left; reflexivity| |].
      + apply re_some, rt_plain; [apply (bo_prim E G Bool_)|discriminate].
      + apply (th_quals false false false [] None false false false rf_none).
    - discriminate.
    - vm_compute. reflexivity.
  Qed.
End Example.

(** What the flags leave visible although their description suggests otherwise: [NO_MS_KEYWORDS]
    removes the word [__restrict] but not the space in front of it, and [NAME_ONLY] keeps
    [noexcept] and the adjustment of a thunk. *)
Example restrict_leaks : demangle (env_of 256) (L "?f@@YAXQIAH@Z") = Ok (L "void f(int *const )") /\ demangle (env_of 256) (L "?f@@YAXQAH@Z") = Ok (L "void f(int *const)").
Proof. split; vm_compute; reflexivity. Qed.
Example name_only_keeps : demangle (env_of 512) (L "?f@@YAXX_E") = Ok (L "f noexcept") /\ demangle (env_of 512) (L "?f@@WBA@EAAXXZ") = Ok (L "f`adjustor{16}'").
Proof. split; vm_compute; reflexivity. Qed.
