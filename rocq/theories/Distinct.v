(** C40: the text tells declarations apart. *)
From Verif Require Import Parser Api Utf8 Format Grammar Number Safety Trip NameRefs NumArr Members Mangle.
From Verif Require Import Show.

(** ** Specification *)
(** C++ types as they are understood, without what the text does not show.  Qualifiers are the
    words in the order written; those of an array are its element's. *)
Inductive qual := Qconst | Qvolatile | Qrestrict.
Inductive cbase := BPrim (k : prim_kind) | BTag (k : tag_kind) (name : list str) | BCustom (x : str).
(** A pointer or reference: [__unaligned], class of a member pointer, kind, qualifiers. *)
Record ptr := Ptr { p_un : bool; p_cls : option (list str); p_aff : affinity; p_qs : list qual }.
Record sig := Sig { g_cc : call_conv; g_quals : bool * bool * bool * bool; g_noexcept : bool; g_rq : option ref_qual; g_variadic : bool }.
Inductive cty :=
| CBase (b : cbase) (qs : list qual)
| CPtr (p : ptr) (c : cty)
| CPtrArr (p : ptr) (dims : list N) (c : cty)
| CPtrFun (p : ptr) (g : sig) (ps : option (list (cty * option (list N)))) (c : cty).
(** A type that is no function: possibly an array of the given dimensions. *)
Definition cxx : Type := (cty * option (list N))%type.

Definition seen (q : N) : list qual :=
  (if contains q Q_Const then [Qconst] else []) ++ (if contains q Q_Volatile then [Qvolatile] else []) ++
  (if contains q Q_Restrict then [Qrestrict] else []).
Definition ptr_of (q : N) (a : affinity) (cls : option (list str)) : ptr := Ptr (contains q Q_Unaligned) cls a (seen q).
Definition sig_of (q : N) (cc : call_conv) (rq : option ref_qual) (v ne : bool) : sig :=
  Sig cc (contains q Q_Const, contains q Q_Volatile, contains q Q_Restrict, contains q Q_Unaligned) ne rq v.
Definition more_quals (l : list qual) (c : cty) : cty :=
  match c with
  | CBase b qs => CBase b (qs ++ l)
  | CPtr (Ptr u n a qs) c => CPtr (Ptr u n a (qs ++ l)) c
  | CPtrArr (Ptr u n a qs) d c => CPtrArr (Ptr u n a (qs ++ l)) d c
  | CPtrFun (Ptr u n a qs) g ps c => CPtrFun (Ptr u n a (qs ++ l)) g ps c
  end.
Fixpoint all_some {A} (l : list (option A)) : option (list A) :=
  match l with
  | [] => Some []
  | Some x :: l => match all_some l with Some l => Some (x :: l) | None => None end
  | None :: _ => None
  end.
(** The meaning of a type; [None] for what is no C++ type: arrays of arrays (their dimensions
    belong together) or of functions, functions returning arrays or functions, and
    function types without a known calling convention or outside a pointer. *)
Fixpoint meaning (t : ty) : option cxx :=
  match t with
  | TPrim q k => Some (CBase (BPrim k) (seen q), None)
  | TTag q k n => Some (CBase (BTag k n) (seen q), None)
  | TCustom _ x => Some (CBase (BCustom x) [], None)
  | TArr q d e => match meaning e with Some (c, None) => Some (more_quals (seen q) c, Some d) | _ => None end
  | TPtr q a cls p =>
    match p with
    | TFun fq cc rq r ps v ne =>
      match cc, r with
      | Some cc, Some r =>
        match meaning r, match ps with None => Some None | Some l => option_map Some (all_some (map meaning l)) end with
        | Some (c, None), Some ps => Some (CPtrFun (ptr_of q a cls) (sig_of fq cc rq v ne) ps c, None)
        | _, _ => None
        end
      | _, _ => None
      end
    | _ =>
      match meaning p with
      | Some (c, None) => Some (CPtr (ptr_of q a cls) c, None)
      | Some (c, Some d) => Some (CPtrArr (ptr_of q a cls) d c, None)
      | None => None
      end
    end
  | TFun _ _ _ _ _ _ _ => None
  end.

(** Names: ASCII letters, digits and underscores, and no keyword. *)
Definition word_char (c : N) : bool := is_ascii_alnum c || (c =? ch "_")%N.
Definition keywords : list str :=
  map L ["const"; "volatile"; "__restrict"; "__unaligned"; "noexcept"; "class"; "struct"; "union"; "enum";
         "void"; "bool"; "char"; "signed"; "unsigned"; "char8_t"; "char16_t"; "char32_t"; "short"; "int"; "long";
         "__int64"; "wchar_t"; "float"; "double"; "auto"; "decltype"; "__cdecl"; "__pascal"; "__thiscall"; "__stdcall";
         "__fastcall"; "__clrcall"; "__eabi"; "__vectorcall"; "__attribute__"; "public"; "protected"; "private";
         "static"; "virtual"; "extern"]%string.
Definition cxx_word (x : str) : bool :=
  forallb word_char x && negb (match x with [] => true | _ => false end) && negb (existsb (str_eqb x) keywords).
Definition cxx_name (n : list str) : bool := forallb cxx_word n && negb (match n with [] => true | _ => false end).
(** The name of a type does not end in an underscore: the code puts no space behind one. *)
Definition no_underscore (x : str) : bool := match rev x with c :: _ => negb (c =? ch "_")%N | [] => true end.
Definition type_name (n : list str) : bool := cxx_name n && no_underscore (last n []).
Definition good_base (b : cbase) : bool :=
  match b with BPrim _ => true | BTag _ n => type_name n | BCustom x => type_name [x] end.
Definition good_ptr (p : ptr) : bool := match p_cls p with Some n => cxx_name n | None => true end.
Definition good_dims (d : list N) : bool := match d with [] => false | _ => true end.
Definition is_ref (c : cty) : bool :=
  match c with
  | CPtr p _ | CPtrArr p _ _ | CPtrFun p _ _ _ => match p_aff p with APointer => false | _ => true end
  | CBase _ _ => false
  end.
Definition is_void (x : cxx) : bool := match x with (CBase (BPrim Void) [], None) => true | _ => false end.
(** No pointer to a reference, no parameter [void]. *)
Fixpoint good (c : cty) : bool :=
  match c with
  | CBase b _ => good_base b
  | CPtr p c => good_ptr p && good c && negb (is_ref c)
  | CPtrArr p d c => good_ptr p && good_dims d && good c
  | CPtrFun p g ps c =>
    good_ptr p && good c &&
    match ps with
    | None => true
    | Some l => forallb (fun x => good (fst x) && match snd x with Some d => good_dims d | None => true end && negb (is_void x)) l
    end
  end.
Definition good_cxx (x : cxx) : bool := good (fst x) && match snd x with Some d => good_dims d | None => true end.

(** ** Tokens *)
Inductive tk := W (w : str) | P (c : N).
Fixpoint tok (s : str) : list tk :=
  match s with
  | [] => []
  | c :: r =>
    if word_char c then
      match tok r with
      | W w :: l => if match r with d :: _ => word_char d | [] => false end then W (c :: w) :: l else W [c] :: tok r
      | _ => W [c] :: tok r
      end
    else if (c =? ch " ")%N then tok r else P c :: tok r
  end.
Definition starts_wc (s : str) : bool := match s with c :: _ => word_char c | [] => false end.
Definition ends_wc (s : str) : bool := starts_wc (rev s).

Lemma tok_wc s : starts_wc s = true -> exists w l, tok s = W w :: l.
Proof.
  destruct s as [|c r]; [discriminate|]. cbn [starts_wc tok]. intros ->.
  destruct (tok r) as [|[w|p] l]; eauto. destruct (match r with [] => false | d :: _ => word_char d end); eauto.
Qed.
Lemma ends_wc_cons c d s : ends_wc (c :: d :: s) = ends_wc (d :: s).
Proof. unfold ends_wc. cbn [rev]. destruct (rev s) as [|x y]; reflexivity. Qed.
Lemma tok_app a b : ends_wc a && starts_wc b = false -> tok (a ++ b) = tok a ++ tok b.
Proof.
  induction a as [|c a IH]; intros H; [reflexivity|]. cbn [app tok].
  destruct a as [|d a].
  - cbn [app tok]. unfold ends_wc in H. cbn in H. destruct (word_char c) eqn:Hc; [|destruct (_ =? _)%N; reflexivity].
    cbn in H. destruct (tok b) as [|[w|p] l] eqn:Hb; try reflexivity.
    destruct b as [|x b]; [reflexivity|]. cbn [starts_wc] in H. rewrite H. reflexivity.
  - rewrite ends_wc_cons in H. specialize (IH H). cbn [app] in *. rewrite IH.
    destruct (word_char c); [|destruct (_ =? _)%N; reflexivity].
    destruct (word_char d) eqn:Hd.
    + destruct (tok_wc (d :: a)) as (w & l & Hw); [exact Hd|]. rewrite Hw. reflexivity.
    + assert (Hx : forall X : list tk, match X with W _ :: _ => W [c] :: X | _ => W [c] :: X end = W [c] :: X) by (intros [|[w|p] X]; reflexivity).
      rewrite !Hx. reflexivity.
Qed.
Lemma tok_word w : forallb word_char w = true -> w <> [] -> tok w = [W w].
Proof.
  induction w as [|c w IH]; intros H Hn; [congruence|]. cbn [forallb] in H. apply andb_prop in H. destruct H as [Hc Hw].
  cbn [tok]. rewrite Hc. destruct w as [|d w]; [reflexivity|]. rewrite IH by (auto; discriminate).
  cbn [forallb] in Hw. apply andb_prop in Hw. destruct Hw as [-> _]. reflexivity.
Qed.
Lemma tok_l a b : ends_wc a = false -> tok (a ++ b) = tok a ++ tok b.
Proof. intros H. apply tok_app. rewrite H. reflexivity. Qed.
Lemma tok_r a b : starts_wc b = false -> tok (a ++ b) = tok a ++ tok b.
Proof. intros H. apply tok_app. rewrite H. apply andb_false_r. Qed.
Lemma ends_app a b : b <> [] -> ends_wc (a ++ b) = ends_wc b.
Proof.
  intros Hb. unfold ends_wc. rewrite rev_app_distr. destruct (rev b) as [|c r] eqn:Hr; [|reflexivity].
  apply (f_equal (@rev N)) in Hr. rewrite rev_involutive in Hr. cbn in Hr. congruence.
Qed.
Lemma starts_app a b : a <> [] -> starts_wc (a ++ b) = starts_wc a.
Proof. destruct a; [congruence|reflexivity]. Qed.

(** ** The tokens of a type *)
Definition qT (q : qual) : tk := W (match q with Qconst => L "const" | Qvolatile => L "volatile" | Qrestrict => L "__restrict" end).
Fixpoint qnT (n : list str) : list tk :=
  match n with [] => [] | [x] => [W x] | x :: n => W x :: P (ch ":") :: P (ch ":") :: qnT n end.
Definition baseT (b : cbase) : list tk :=
  match b with BPrim k => tok (prim_text k) | BTag k n => W (tag_text k) :: qnT n | BCustom x => [W x] end.
Definition ccT (c : call_conv) : list tk :=
  match c with
  | Cdecl => [W (L "__cdecl")] | Pascal => [W (L "__pascal")] | Thiscall => [W (L "__thiscall")] | Stdcall => [W (L "__stdcall")]
  | Fastcall => [W (L "__fastcall")] | Clrcall => [W (L "__clrcall")] | Eabi => [W (L "__eabi")] | Vectorcall => [W (L "__vectorcall")]
  | Swift => tok (L "__attribute__((__swiftcall__))") | SwiftAsync => tok (L "__attribute__((__swiftasynccall__))")
  end.
Definition affT (a : affinity) : list tk :=
  match a with APointer => [P (ch "*")] | AReference => [P (ch "&")] | ARValueReference => [P (ch "&"); P (ch "&")] end.
Definition ptrT (p : ptr) (mid : list tk) : list tk :=
  (if p_un p then [W (L "__unaligned")] else []) ++ mid ++
  match p_cls p with Some n => qnT n ++ [P (ch ":"); P (ch ":")] | None => [] end ++ affT (p_aff p) ++ map qT (p_qs p).
Definition dimT (d : N) : list tk := P (ch "[") :: (if (d =? 0)%N then [] else [W (dec_N d)]) ++ [P (ch "]")].
Definition arrT (d : option (list N)) : list tk := match d with Some d => concat (map dimT d) | None => [] end.
Definition tailT (g : sig) : list tk :=
  let '(c, v, r, u) := g_quals g in
  (if c then [W (L "const")] else []) ++ (if v then [W (L "volatile")] else []) ++
  (if r then [W (L "__restrict")] else []) ++ (if u then [W (L "__unaligned")] else []) ++
  (if g_noexcept g then [W (L "noexcept")] else []) ++
  match g_rq g with Some RQReference => [P (ch "&")] | Some RQRValueReference => [P (ch "&"); P (ch "&")] | None => [] end.
Fixpoint joinT (l : list (list tk)) : list tk :=
  match l with [] => [] | [x] => x | x :: l => x ++ P (ch ",") :: joinT l end.
Definition dotsT : list tk := [P (ch "."); P (ch "."); P (ch ".")].
Definition paramsT (l : list (list tk)) (v : bool) : list tk :=
  P (ch "(") :: joinT l ++ (if v then (match l with [] => [] | _ => [P (ch ",")] end) ++ dotsT else []) ++ [P (ch ")")].
Fixpoint preT (c : cty) : list tk :=
  match c with
  | CBase b qs => baseT b ++ map qT qs
  | CPtr p c => preT c ++ ptrT p []
  | CPtrArr p _ c => preT c ++ ptrT p [P (ch "(")]
  | CPtrFun p g _ c => preT c ++ ptrT p (P (ch "(") :: ccT (g_cc g))
  end.
Fixpoint postT (c : cty) : list tk :=
  match c with
  | CBase _ _ => []
  | CPtr _ c => postT c
  | CPtrArr _ d c => P (ch ")") :: concat (map dimT d) ++ postT c
  | CPtrFun _ g ps c =>
    P (ch ")") :: paramsT (match ps with None => [[W (L "void")]] | Some l => map (fun x => preT (fst x) ++ arrT (snd x) ++ postT (fst x)) l end) (g_variadic g) ++
    tailT g ++ postT c
  end.
Definition typeT (x : cxx) : list tk := preT (fst x) ++ arrT (snd x) ++ postT (fst x).

Lemma pre_more l c : preT (more_quals l c) = preT c ++ map qT l.
Proof.
  destruct c as [b qs|[u n a qs] c|[u n a qs] d c|[u n a qs] g ps c]; cbn [more_quals preT]; unfold ptrT; cbn [p_un p_cls p_aff p_qs];
    rewrite map_app, <- ?app_assoc; reflexivity.
Qed.
Lemma post_more l c : postT (more_quals l c) = postT c.
Proof. destruct c as [b qs|[u n a qs] c|[u n a qs] d c|[u n a qs] g ps c]; reflexivity. Qed.
Lemma good_more l c : good (more_quals l c) = good c.
Proof. destruct c as [b qs|[u n a qs] c|[u n a qs] d c|[u n a qs] g ps c]; reflexivity. Qed.

(** ** The text of a type has these tokens *)
Section Text.
  Variable E : env.
  Hypothesis H0 : e_flags E = 0%N.

  Ltac flag := match goal with |- ?f E = false => unfold f end.
  Lemma fl1 : no_leading_underscores E = false. Proof. unfold no_leading_underscores, no_ms_keywords. rewrite H0. reflexivity. Qed.
  Lemma fl2 : no_ms_keywords E = false. Proof. unfold no_ms_keywords. rewrite H0. reflexivity. Qed.
  Lemma fl3 : no_calling_convention E = false. Proof. unfold no_calling_convention. rewrite H0. reflexivity. Qed.
  Lemma fl4 : no_tag_specifier E = false. Proof. unfold no_tag_specifier. rewrite H0. reflexivity. Qed.
  Lemma fl5 : no_return_type E = false. Proof. unfold no_return_type. rewrite H0. reflexivity. Qed.
  Lemma fl6 : name_only E = false. Proof. unfold name_only. rewrite H0. reflexivity. Qed.
  Lemma fl7 : no_this_type E = false. Proof. unfold no_this_type. rewrite H0. reflexivity. Qed.
  Lemma fl8 : no_access_specifier E = false. Proof. unfold no_access_specifier. rewrite H0. reflexivity. Qed.
  Lemma fl9 : no_member_type E = false. Proof. unfold no_member_type. rewrite H0. reflexivity. Qed.
  Lemma fl10 : no_variable_type E = false. Proof. unfold no_variable_type. rewrite H0. reflexivity. Qed.
  Ltac fls := rewrite ?fl1, ?fl2, ?fl3, ?fl4, ?fl5, ?fl6, ?fl7, ?fl8, ?fl9, ?fl10; cbn [negb andb orb opt].

  Definition tidy (x : str) : Prop := ends_wc x = true -> ends_word E x = true.
  Lemma tidy_spec x : tidy x -> tok (sp E x) = tok x /\ ends_wc (sp E x) = false.
  Proof.
    unfold tidy, sp. intros H. destruct (ends_word E x) eqn:Hw; cbn [opt].
    - rewrite tok_r by reflexivity. rewrite ends_app by discriminate. cbn [tok L]. split; [cbn; apply app_nil_r|reflexivity].
    - rewrite app_nil_r. split; [reflexivity|]. destruct (ends_wc x); [discriminate H; reflexivity|reflexivity].
  Qed.
  Lemma tidy_app a b : b <> [] -> tidy b -> tidy (a ++ b).
  Proof.
    intros Hb H. unfold tidy. rewrite ends_app by assumption. intros He. specialize (H He). unfold ends_word in *. rewrite rev_app_distr.
    destruct (rev b) as [|c r]; [discriminate H|exact H].
  Qed.
  Lemma alnum_tidy x c : rev x = c :: tl (rev x) -> is_ascii_alnum c = true -> tidy x.
  Proof.
    intros Hr Hc _. unfold ends_word. rewrite Hr. unfold is_alphanumeric.
    assert (Hl : (c <? 128)%N = true).
    { unfold is_ascii_alnum, is_digit, is_upper, is_lower, in_range in Hc. apply N.ltb_lt.
      repeat match goal with H : _ || _ = true |- _ => apply orb_prop in H; destruct H end;
        match goal with H : _ && _ = true |- _ => apply andb_prop in H; destruct H as [_ H]; apply N.leb_le in H; cbn in H; lia end. }
    rewrite Hl, Hc. reflexivity.
  Qed.

  Lemma word_facts x : cxx_word x = true -> tok x = [W x] /\ x <> [] /\ starts_wc x = true /\ ~ In x keywords.
  Proof.
    unfold cxx_word. intros H. apply andb_prop in H. destruct H as [H H2]. apply andb_prop in H. destruct H as [H H1].
    assert (Hn : x <> []) by (destruct x; [discriminate H1|discriminate]). split; [apply tok_word; assumption|]. split; [exact Hn|].
    split.
    - destruct x; [congruence|]. cbn [forallb] in H. apply andb_prop in H. apply H.
    - intros Hi. apply negb_true_iff in H2. rewrite <- not_true_iff_false in H2. apply H2. apply seen_iff. exact Hi.
  Qed.
  Lemma name_facts n : cxx_name n = true -> n <> [] /\ Forall (fun x => cxx_word x = true) n.
  Proof.
    unfold cxx_name. intros H. apply andb_prop in H. destruct H as [H H1]. split; [destruct n; [discriminate H1|discriminate]|].
    apply Forall_forall. rewrite forallb_forall in H. exact H.
  Qed.
  Lemma tok_name n : n <> [] -> Forall (fun x => cxx_word x = true) n -> tok (qualified n) = qnT n /\ qualified n <> [] /\ starts_wc (qualified n) = true.
  Proof.
    unfold qualified. induction n as [|x n IH]; intros Hn H; [congruence|]. inversion H as [|? ? Hx Hf]; subst.
    destruct (word_facts x Hx) as (T1 & T2 & T3 & _). destruct n as [|y n].
    - cbn [join qnT]. auto.
    - destruct (IH ltac:(discriminate) Hf) as (I1 & I2 & I3). clear IH.
      assert (Hj : join (L "::") (x :: y :: n) = x ++ L "::" ++ join (L "::") (y :: n)) by reflexivity. rewrite Hj. clear Hj.
      split; [|split].
      + rewrite tok_r by reflexivity. rewrite tok_l by reflexivity. rewrite T1, I1. reflexivity.
      + destruct x; [congruence|discriminate].
      + rewrite starts_app by assumption. exact T3.
  Qed.
  Lemma join_last sep l : l <> [] -> Forall (fun x : str => x <> []) l -> exists a, join sep l = a ++ last l [].
  Proof.
    induction l as [|x l IH]; intros Hn H; [congruence|]. inversion H as [|? ? Hx Hf]; subst. destruct l as [|y l].
    - exists []. reflexivity.
    - destruct (IH ltac:(discriminate) Hf) as [a Ha]. exists (x ++ sep ++ a).
      change (join sep (x :: y :: l)) with (x ++ sep ++ join sep (y :: l)). rewrite Ha, <- !app_assoc. reflexivity.
  Qed.
  Lemma tidy_name n : type_name n = true -> tidy (qualified n).
  Proof.
    unfold type_name. intros H. apply andb_prop in H. destruct H as [H Hu]. destruct (name_facts n H) as [Hn Hf].
    destruct (join_last (L "::") n Hn) as [a Ha].
    { eapply Forall_impl; [|exact Hf]. intros x Hx. apply (word_facts x Hx). }
    unfold qualified. rewrite Ha. assert (Hl : cxx_word (last n []) = true).
    { rewrite Forall_forall in Hf. apply Hf. clear - Hn. destruct n as [|x n]; [congruence|]. clear Hn. revert x. induction n as [|y n IH]; intros x; [left; reflexivity|].
      right. apply (IH y). }
    destruct (word_facts _ Hl) as (T1 & T2 & T3 & _). apply tidy_app; [exact T2|].
    unfold no_underscore in Hu. intros Hw. unfold ends_wc in Hw. destruct (rev (last n [])) as [|c r] eqn:Hr; [discriminate Hw|].
    cbn [starts_wc] in Hw. unfold word_char in Hw. apply negb_true_iff in Hu. rewrite Hu, orb_false_r in Hw.
    eapply alnum_tidy; [rewrite Hr; reflexivity|exact Hw|]. unfold ends_wc. rewrite Hr. cbn. unfold word_char. rewrite Hw. reflexivity.
  Qed.
  Lemma prim_facts k : tidy (prim_text k) /\ prim_text k <> [].
  Proof. split; [destruct k; intros H; try reflexivity; discriminate H|destruct k; discriminate]. Qed.
  Lemma quals_after_facts q : tok (quals_after E q) = map qT (seen q) /\ starts_wc (quals_after E q) = false /\ (quals_after E q = [] \/ quals_after E q <> [] /\ tidy (quals_after E q)).
  Proof.
    unfold quals_after, qual_words, seen, kw. fls.
    destruct (contains q Q_Const), (contains q Q_Volatile), (contains q Q_Restrict); (split; [reflexivity|split; [reflexivity|]]);
      first [left; reflexivity|right; split; [discriminate|intros _; reflexivity]].
  Qed.
  Lemma quals_alone_facts q : tok (quals_alone E q) = map qT (seen q) /\ (quals_alone E q = [] \/ quals_alone E q <> [] /\ tidy (quals_alone E q)).
  Proof.
    unfold quals_alone, qual_words, seen, kw. fls.
    destruct (contains q Q_Const), (contains q Q_Volatile), (contains q Q_Restrict); (split; [reflexivity|]);
      first [left; reflexivity|right; split; [discriminate|intros _; reflexivity]].
  Qed.
  Lemma tidy_quals x q : tidy x -> tok (x ++ quals_after E q) = tok x ++ map qT (seen q) /\ tidy (x ++ quals_after E q).
  Proof.
    intros Hx. destruct (quals_after_facts q) as (H1 & H2 & H3). rewrite tok_r, H1 by exact H2. split; [reflexivity|].
    destruct H3 as [-> |[Hn Ht]]; [rewrite app_nil_r; exact Hx|apply tidy_app; assumption].
  Qed.
  Lemma not_wc_tidy x : ends_wc x = false -> tidy x.
  Proof. intros H H1. congruence. Qed.
  Lemma aff_facts a : tok (pointer_text a) = affT a /\ ends_wc (pointer_text a) = false /\ pointer_text a <> [] /\ starts_wc (pointer_text a) = false.
  Proof. destruct a; repeat split; discriminate. Qed.
  Lemma ptr_text q a cls X M : tidy X -> ends_wc M = false -> good_ptr (ptr_of q a cls) = true ->
    let t := sp E X ++ opt (contains q Q_Unaligned) (L "__unaligned ") ++ M ++ match cls with Some n => qualified n ++ L "::" | None => [] end ++ pointer_text a ++ quals_alone E q in
    tok t = tok X ++ ptrT (ptr_of q a cls) (tok M) /\ tidy t.
  Proof.
    intros HX HM Hg t. subst t. destruct (tidy_spec X HX) as [S1 S2]. destruct (quals_alone_facts q) as [Q1 Q2]. destruct (aff_facts a) as (A1 & A2 & A3 & A4).
    assert (Hcls : let c := match cls with Some n => qualified n ++ L "::" | None => [] end in
      tok c = match cls with Some n => qnT n ++ [P (ch ":"); P (ch ":")] | None => [] end /\ ends_wc c = false).
    { destruct cls as [n|]; [|split; reflexivity]. cbn [good_ptr ptr_of p_cls] in Hg. destruct (name_facts n Hg) as [Hn Hf].
      destruct (tok_name n Hn Hf) as (N1 & N2 & N3). cbv zeta. rewrite tok_r by reflexivity. rewrite N1, ends_app by discriminate. split; reflexivity. }
    cbv zeta in Hcls. destruct Hcls as [C1 C2]. split.
    - rewrite tok_l, S1 by exact S2. f_equal. unfold ptrT, ptr_of. cbn [p_un p_cls p_aff p_qs].
      rewrite tok_l by (destruct (contains q Q_Unaligned); reflexivity). f_equal; [destruct (contains q Q_Unaligned); reflexivity|].
      rewrite tok_l by exact HM. f_equal. rewrite tok_l, C1 by exact C2. f_equal. rewrite tok_l, A1, Q1 by exact A2. reflexivity.
    - do 4 (apply tidy_app; [intros Hz; repeat (apply app_eq_nil in Hz; destruct Hz as [? Hz]); destruct a; discriminate|]).
      destruct Q2 as [-> |[Hn Ht]]; [rewrite app_nil_r; apply not_wc_tidy; exact A2|apply tidy_app; assumption].
  Qed.

  (** No type ends in an opening bracket. *)
  Definition closed_end (l : list tk) : Prop := exists l' k, l = l' ++ [k] /\ k <> P (ch "(").
  Lemma ce_app a b : closed_end b -> closed_end (a ++ b).
  Proof. intros (l & k & -> & H). exists (a ++ l), k. rewrite app_assoc. auto. Qed.
  Lemma ce_opt a b : closed_end a -> b = [] \/ closed_end b -> closed_end (a ++ b).
  Proof. intros Ha [-> |Hb]; [rewrite app_nil_r; exact Ha|apply ce_app; exact Hb]. Qed.
  Lemma ce_one k : k <> P (ch "(") -> closed_end [k].
  Proof. exists [], k. auto. Qed.
  Lemma ce_quals qs : map qT qs = [] \/ closed_end (map qT qs).
  Proof.
    destruct qs as [|q qs] using rev_ind; [left; reflexivity|right]. rewrite map_app. apply ce_app, ce_one. discriminate.
  Qed.
  Lemma ce_qn n : n <> [] -> closed_end (qnT n).
  Proof.
    induction n as [|x n IH]; intros Hn; [congruence|]. destruct n as [|y n]; [apply ce_one; discriminate|].
    change (qnT (x :: y :: n)) with ([W x; P (ch ":"); P (ch ":")] ++ qnT (y :: n)). apply ce_app, IH. discriminate.
  Qed.
  Lemma ce_base b : good_base b = true -> closed_end (baseT b).
  Proof.
    destruct b as [k|k n|x]; intros H.
    - destruct k; cbn; match goal with |- closed_end ?l => let l' := eval cbn in (removelast l) in let k := eval cbn in (last l (P 0%N)) in exists l', k; split; [reflexivity|discriminate] end.
    - cbn [baseT]. apply (ce_app [W (tag_text k)]), ce_qn. cbn in H. unfold type_name in H. apply andb_prop in H. destruct H as [H _]. apply (name_facts n H).
    - apply ce_one. discriminate.
  Qed.
  Lemma ce_ptr p mid : closed_end (ptrT p mid).
  Proof.
    unfold ptrT. do 3 apply ce_app. apply ce_opt; [|apply ce_quals]. destruct (p_aff p); cbn; [| |apply (ce_app [_])]; apply ce_one; discriminate.
  Qed.
  Lemma ce_pre c : good c = true -> closed_end (preT c).
  Proof.
    destruct c; intros H; cbn [preT]; try (apply ce_app, ce_ptr). cbn in H. apply ce_opt; [apply ce_base; exact H|apply ce_quals].
  Qed.
  Lemma ce_dims d : concat (map dimT d) = [] \/ closed_end (concat (map dimT d)).
  Proof.
    destruct d as [|x d] using rev_ind; [left; reflexivity|right]. rewrite map_app, concat_app. apply ce_app. cbn [map concat]. rewrite app_nil_r.
    unfold dimT. apply (ce_app [_]). apply ce_app, ce_one. discriminate.
  Qed.
  Lemma ce_cons k l : l = [] \/ closed_end l -> k <> P (ch "(") -> closed_end (k :: l).
  Proof. intros [-> |H] Hk; [apply ce_one; exact Hk|apply (ce_app [k]); exact H]. Qed.
  Lemma ce_post c : postT c = [] \/ closed_end (postT c).
  Proof.
    induction c as [b qs|p c IH|p d c IH|p g ps c IH]; cbn [postT]; auto.
    - right. apply ce_cons; [|discriminate]. destruct IH as [-> |H]; [rewrite app_nil_r; apply ce_dims|right; apply ce_app; exact H].
    - right. apply ce_cons; [|discriminate]. right. apply ce_opt.
      + unfold paramsT. apply (ce_app [_]). do 2 apply ce_app. apply ce_one. discriminate.
      + destruct IH as [-> |H]; [|right; apply ce_app; exact H]. rewrite app_nil_r. unfold tailT. destruct (g_quals g) as [[[c1 c2] c3] c4].
        destruct (g_rq g) as [[]|].
        * right. do 5 apply ce_app. apply ce_one. discriminate.
        * right. do 5 apply ce_app. apply (ce_app [_]), ce_one. discriminate.
        * rewrite app_nil_r. destruct (g_noexcept g); [right; do 4 apply ce_app; apply ce_one; discriminate|]. rewrite app_nil_r.
          destruct c4; [right; do 3 apply ce_app; apply ce_one; discriminate|]. rewrite app_nil_r.
          destruct c3; [right; do 2 apply ce_app; apply ce_one; discriminate|]. rewrite app_nil_r.
          destruct c2; [right; apply ce_app; apply ce_one; discriminate|]. rewrite app_nil_r.
          destruct c1; [right; apply ce_one; discriminate|left; reflexivity].
  Qed.
  Lemma ce_type x : good_cxx x = true -> closed_end (typeT x).
  Proof.
    destruct x as [c d]. unfold good_cxx, typeT. cbn [fst snd]. intros H. apply andb_prop in H. destruct H as [H _].
    apply ce_opt; [apply ce_pre; exact H|]. destruct (ce_post c) as [-> |Hc]; [|right; apply ce_app; exact Hc]. rewrite app_nil_r.
    destruct d as [d|]; [apply ce_dims|left; reflexivity].
  Qed.

  (** Parameter lists. *)
  Lemma tok_join l : tok (join (L ", ") l) = joinT (map tok l).
  Proof.
    induction l as [|x l IH]; [reflexivity|]. destruct l as [|y l]; [reflexivity|].
    change (join (L ", ") (x :: y :: l)) with (x ++ L ", " ++ join (L ", ") (y :: l)).
    rewrite tok_r by reflexivity. rewrite tok_l by reflexivity. rewrite IH. reflexivity.
  Qed.
  Lemma tok_params l v : Forall (fun x => closed_end (tok x)) l -> tok (params_text (Some l) v) = paramsT (map tok l) v.
  Proof.
    intros H. unfold params_text, paramsT. cbv zeta.
    assert (Hb : l = [] \/ closed_end (tok (join (L ", ") l))).
    { destruct l as [|x l]; [auto|right]. rewrite tok_join. clear - H. revert x H. induction l as [|y l IH]; intros x H; inversion H as [|? ? H1 H2]; subst.
      - exact H1.
      - change (joinT (map tok (x :: y :: l))) with (tok x ++ [P (ch ",")] ++ joinT (map tok (y :: l))). do 2 apply ce_app. apply IH. exact H2. }
    rewrite tok_l by reflexivity. change (tok (L "(")) with [P (ch "(")]. cbn [app]. f_equal.
    assert (Hsep : match rev (L "(" ++ join (L ", ") l) with c :: _ => opt (negb (c =? ch "(")%N) (L ", ") | [] => [] end
                   = match l with [] => [] | _ => L ", " end).
    { destruct Hb as [-> |Hb]; [reflexivity|]. rewrite rev_app_distr. destruct (rev (join (L ", ") l)) as [|c r] eqn:Hr.
      - apply (f_equal (@rev N)) in Hr. rewrite rev_involutive in Hr. cbn [rev] in Hr. rewrite Hr in Hb. destruct Hb as (l' & k & Hk & _). destruct l'; discriminate Hk.
      - cbn [app]. apply (f_equal (@rev N)) in Hr. rewrite rev_involutive in Hr. cbn [rev] in Hr.
        destruct (N.eqb_spec c (ch "(")) as [->|Hc].
        + exfalso. rewrite Hr in Hb. rewrite tok_r in Hb by reflexivity. destruct Hb as (l' & k & Hk & Hne). apply (app_inj_tail _ _ (P (ch "(")) k) in Hk. destruct Hk as [_ <-]. apply Hne. reflexivity.
        + cbn [negb opt]. destruct l; [destruct Hb as (l' & k & Hk & _); destruct l'; discriminate Hk|reflexivity]. }
    rewrite Hsep. clear Hsep. rewrite tok_r by (destruct v, l; reflexivity). rewrite tok_join. f_equal.
    rewrite tok_r by reflexivity. f_equal. destruct v, l; reflexivity.
  Qed.
  Lemma tok_tail q ne rq cc v : tok (fn_tail E q ne rq) = tailT (sig_of q cc rq v ne) /\ starts_wc (fn_tail E q ne rq) = false.
  Proof.
    unfold fn_tail, kw, tailT, sig_of. cbn [g_quals g_noexcept g_rq]. fls.
    destruct (contains q Q_Const), (contains q Q_Volatile), (contains q Q_Restrict), (contains q Q_Unaligned), ne, rq as [[]|]; split; reflexivity.
  Qed.
  Lemma tok_dims d : d <> [] -> tok (L "[" ++ join (L "][") (map dim_text d) ++ L "]") = concat (map dimT d).
  Proof.
    intros Hd.
    assert (Hx : forall x, tok (dim_text x) = if (x =? 0)%N then [] else [W (dec_N x)]).
    { intros x. unfold dim_text. destruct (N.eqb_spec x 0) as [->|Hn]; [reflexivity|]. destruct (dec_N_correct x) as (D1 & _ & _ & D2).
      apply tok_word; [|destruct (dec_N x); [destruct (D2 Hn)|discriminate]].
      apply forallb_forall. rewrite Forall_forall in D1. intros c Hc. unfold word_char, is_ascii_alnum. rewrite (D1 c Hc). reflexivity. }
    rewrite tok_l by reflexivity. rewrite tok_r by reflexivity. change (tok (L "[")) with [P (ch "[")]. change (tok (L "]")) with [P (ch "]")].
    induction d as [|x d IH]; [congruence|]. destruct d as [|y d].
    - cbn [map join concat]. rewrite Hx, app_nil_r. reflexivity.
    - change (join (L "][") (map dim_text (x :: y :: d))) with (dim_text x ++ L "][" ++ join (L "][") (map dim_text (y :: d))).
      rewrite tok_r by reflexivity. rewrite tok_l by reflexivity. rewrite Hx. change (tok (L "][")) with [P (ch "]"); P (ch "[")].
      change (concat (map dimT (x :: y :: d))) with (dimT x ++ concat (map dimT (y :: d))). rewrite <- IH by discriminate. unfold dimT.
      rewrite <- !app_assoc. cbn [app]. rewrite <- !app_assoc. reflexivity.
  Qed.

  (** The main lemma. *)
  Definition reads (t : ty) : Prop := forall x, meaning t = Some x -> good_cxx x = true ->
    tok (pre E t) = preT (fst x) /\ tidy (pre E t) /\ tok (post E t) = arrT (snd x) ++ postT (fst x) /\ starts_wc (post E t) = false.
  Lemma reads_type t x : reads t -> meaning t = Some x -> good_cxx x = true -> tok (pre E t ++ post E t) = typeT x.
  Proof. intros H Hm Hg. destruct (H x Hm Hg) as (R1 & _ & R3 & R4). rewrite tok_r, R1, R3 by exact R4. reflexivity. Qed.
  Lemma cc_facts c : tok (cc_text E c ++ L " ") = ccT c /\ ends_wc (L "(" ++ cc_text E c ++ L " ") = false.
  Proof. split; [unfold cc_text, kw; destruct c; fls; vm_compute; reflexivity|]. rewrite app_assoc, ends_app by discriminate. reflexivity. Qed.
  Lemma all_some_reads l xs : Forall reads l -> all_some (map meaning l) = Some xs -> forallb good_cxx xs = true ->
    map tok (map (fun t => pre E t ++ post E t) l) = map typeT xs /\ Forall (fun s => closed_end (tok s)) (map (fun t => pre E t ++ post E t) l).
  Proof.
    revert xs. induction l as [|t l IH]; intros xs HF Ha Hg; cbn [map all_some] in Ha.
    - injection Ha as <-. split; [reflexivity|constructor].
    - inversion HF as [|? ? H1 H2]; subst. destruct (meaning t) as [x|] eqn:Hm; [|discriminate].
      destruct (all_some (map meaning l)) as [ys|] eqn:Hy; [|discriminate]. injection Ha as <-. cbn [forallb] in Hg. apply andb_prop in Hg. destruct Hg as [G1 G2].
      destruct (IH ys H2 eq_refl G2) as [I1 I2]. pose proof (reads_type t x H1 Hm G1) as Ht. cbn [map]. rewrite Ht, I1. split; [reflexivity|].
      constructor; [rewrite Ht; apply ce_type; exact G1|exact I2].
  Qed.
  Lemma fun_pointer q a cls fq cc rq r ps v ne : reads r -> match ps with Some l => Forall reads l | None => True end ->
    reads (TPtr q a cls (TFun fq cc rq (Some r) ps v ne)).
  Proof.
    intros Hr Hps x Hm Hg. cbn [meaning] in Hm. destruct cc as [cc|]; [|discriminate].
    destruct (meaning r) as [[c [d|]]|] eqn:Hc; try discriminate.
    destruct (match ps with None => Some None | Some l => option_map Some (all_some (map meaning l)) end) as [xs|] eqn:Hx; [|discriminate].
    injection Hm as <-. unfold good_cxx in Hg. cbn [fst snd good] in Hg. rewrite andb_true_r in Hg.
    apply andb_prop in Hg. destruct Hg as [Hg G3]. apply andb_prop in Hg. destruct Hg as [G1 G2].
    destruct (Hr (c, None) Hc) as (R1 & R2 & R3 & R4); [unfold good_cxx; cbn [fst snd]; rewrite G2; reflexivity|]. cbn [fst snd arrT app] in *.
    destruct (cc_facts cc) as [C1 C2].
    destruct (ptr_text q a cls (pre E r ++ L " ") (L "(" ++ cc_text E cc ++ L " ")) as [T1 T2]; [apply not_wc_tidy; rewrite ends_app by discriminate; reflexivity|exact C2|exact G1|].
    cbv zeta in T1, T2.
    assert (Hpre : pre E (TPtr q a cls (TFun fq (Some cc) rq (Some r) ps v ne)) =
      sp E (pre E r ++ L " ") ++ opt (contains q Q_Unaligned) (L "__unaligned ") ++ (L "(" ++ cc_text E cc ++ L " ") ++
      match cls with Some n => qualified n ++ L "::" | None => [] end ++ pointer_text a ++ quals_alone E q).
    { cbn [pre]. unfold show_cc, kw. fls. reflexivity. }
    rewrite Hpre. split; [|split; [exact T2|]].
    - rewrite T1. cbn [fst preT]. rewrite tok_r, R1 by reflexivity. change (tok (L " ")) with (@nil tk). rewrite app_nil_r.
      rewrite (tok_l (L "(")) by reflexivity. rewrite C1. reflexivity.
    - assert (Hpost : post E (TPtr q a cls (TFun fq (Some cc) rq (Some r) ps v ne)) =
        L ")" ++ params_text (match ps with Some l => Some (map (fun t => pre E t ++ post E t) l) | None => None end) v ++ fn_tail E fq ne rq ++ post E r).
      { cbn [post]. fls. reflexivity. }
      rewrite Hpost. split; [|reflexivity]. cbn [postT]. rewrite tok_l by reflexivity. change (tok (L ")")) with [P (ch ")")]. cbn [app]. f_equal.
      destruct (tok_tail fq ne rq cc v) as [L1 L2].
      rewrite tok_r by (destruct (fn_tail E fq ne rq) eqn:Hf; [exact R4|exact L2]).
      rewrite (tok_r (fn_tail E fq ne rq)), L1, R3 by exact R4. f_equal.
      destruct ps as [l|].
      + destruct (all_some (map meaning l)) as [ys|] eqn:Hy; [|discriminate]. cbn [option_map] in Hx. injection Hx as <-.
        destruct (all_some_reads l ys Hps Hy) as [I1 I2].
        { rewrite forallb_forall in *. intros y Hin. specialize (G3 y Hin). apply andb_prop in G3. apply G3. }
        rewrite tok_params by exact I2. rewrite I1. reflexivity.
      + injection Hx as <-. transitivity (tok (params_text (Some [L "void"]) v)); [reflexivity|]. rewrite tok_params; [reflexivity|]. constructor; [|constructor]. apply ce_one. discriminate.
  Qed.
  Definition parts_read (t : ty) : Prop :=
    match t with
    | TFun _ _ _ r ps _ _ => match r with Some r => reads r | None => True end /\ match ps with Some l => Forall reads l | None => True end
    | _ => True
    end.
  Lemma obj_pointer q a cls p : is_fun p = false -> reads p -> reads (TPtr q a cls p).
  Proof.
    intros Hf Hp x Hm Hg.
    assert (Hm' : match meaning p with
      | Some (c, None) => Some (CPtr (ptr_of q a cls) c, None)
      | Some (c, Some d) => Some (CPtrArr (ptr_of q a cls) d c, None)
      | None => None
      end = Some x) by (destruct p; try discriminate Hf; exact Hm).
    assert (Hpre : pre E (TPtr q a cls p) =
      sp E (pre E p) ++ opt (contains q Q_Unaligned) (L "__unaligned ") ++ match p with TArr _ _ _ => L "(" | _ => [] end ++
      match cls with Some n => qualified n ++ L "::" | None => [] end ++ pointer_text a ++ quals_alone E q).
    { destruct p; try discriminate Hf; cbn [pre]; unfold kw; fls; reflexivity. }
    assert (Hpost : post E (TPtr q a cls p) = match p with TArr _ _ _ => L ")" | _ => [] end ++ post E p) by (destruct p; try discriminate Hf; reflexivity).
    assert (Harr : match p with TArr _ _ _ => True | _ => forall y d, meaning p <> Some (y, Some d) end).
    { destruct p as [q' k'|q' k' n'|q' a' c' p'|q' d' e'|q' cc' rq' r' ps' v' ne'|q' x']; try discriminate; try exact I.
      intros y d. cbn [meaning]. destruct p' as [| | | |? [?|] ? [?|] ? ? ?|]; try discriminate;
        try (match goal with |- match ?m with _ => _ end <> _ => destruct m as [[? [?|]]|]; discriminate end).
      match goal with |- match ?m with _ => _ end <> _ => destruct m as [[? [?|]]|]; try discriminate end.
      match goal with |- match ?m with _ => _ end <> _ => destruct m; discriminate end. }
    rewrite Hpre, Hpost. clear Hpre Hpost Hm. destruct (meaning p) as [[c [d|]]|] eqn:Hc; [| |discriminate]; injection Hm' as <-;
      unfold good_cxx in Hg; cbn [fst snd good] in Hg; rewrite andb_true_r in Hg; cbn [fst snd preT postT arrT app].
    - assert (Hg' : good_ptr (ptr_of q a cls) = true /\ good_dims d = true /\ good c = true).
      { apply andb_prop in Hg. destruct Hg as [Hg G1]. apply andb_prop in Hg. tauto. }
      destruct Hg' as (G1 & G2 & G3). destruct (Hp (c, Some d) Hc) as (R1 & R2 & R3 & R4); [unfold good_cxx; cbn [fst snd]; rewrite G3, G2; reflexivity|]. cbn [fst snd arrT] in *.
      destruct p as [q' k'|q' k' n'|q' a' c' p'|q' d' e'|q' cc' rq' r' ps' v' ne'|q' x']; try (destruct (Harr c d); reflexivity).
      destruct (ptr_text q a cls (pre E (TArr q' d' e')) (L "(") R2 eq_refl G1) as [T1 T2]. cbv zeta in T1, T2.
      rewrite T1, R1. split; [reflexivity|]. split; [exact T2|]. split; [|reflexivity]. rewrite tok_l, R3 by reflexivity. reflexivity.
    - assert (Hg' : good_ptr (ptr_of q a cls) = true /\ good c = true).
      { apply andb_prop in Hg. destruct Hg as [Hg G1]. apply andb_prop in Hg. tauto. }
      destruct Hg' as (G1 & G3). destruct (Hp (c, None) Hc) as (R1 & R2 & R3 & R4); [unfold good_cxx; cbn [fst snd]; rewrite G3; reflexivity|]. cbn [fst snd arrT app] in *.
      assert (Hna : match p with TArr _ _ _ => L "(" | _ => [] end = [] /\ match p with TArr _ _ _ => L ")" | _ => [] end = []).
      { destruct p as [q' k'|q' k' n'|q' a' c' p'|q' d' e'|q' cc' rq' r' ps' v' ne'|q' x']; try (split; reflexivity).
        cbn [meaning] in Hc. destruct (meaning e') as [[? [?|]]|]; discriminate. }
      destruct Hna as [-> ->]. destruct (ptr_text q a cls (pre E p) [] R2 eq_refl G1) as [T1 T2]. cbv zeta in T1, T2.
      rewrite T1, R1. cbn [app tok]. auto.
  Qed.
  Lemma reads_all t : reads t /\ parts_read t.
  Proof.
    induction t as [q k|q k n|q a cls p IH|q ds el IH|q cc rq r ps v ne IHr IHp|q x] using ty_ind'; (split; [|try exact I]).
    - intros x Hm Hg. injection Hm as <-. cbn [fst snd arrT preT postT app]. destruct (prim_facts k) as [P1 P2].
      destruct (tidy_quals (prim_text k) q P1) as [Q1 Q2]. cbn [pre post]. auto.
    - intros x Hm Hg. injection Hm as <-. cbn [fst snd arrT preT postT app]. unfold good_cxx in Hg. cbn [fst snd good good_base] in Hg. rewrite andb_true_r in Hg.
      pose proof (tidy_name n Hg) as Hn. unfold type_name in Hg. apply andb_prop in Hg. destruct Hg as [Hg _]. destruct (name_facts n Hg) as [N1 N2].
      destruct (tok_name n N1 N2) as (T1 & T2 & T3). cbn [pre post]. fls.
      assert (Ht : tidy ((tag_text k ++ L " ") ++ qualified n)) by (apply tidy_app; assumption).
      destruct (tidy_quals _ q Ht) as [Q1 Q2]. rewrite <- app_assoc in Q1, Q2. split; [|auto]. rewrite Q1. cbn [baseT].
      rewrite tok_l by (rewrite ends_app by discriminate; reflexivity). rewrite T1. cbn [app]. f_equal. destruct k; reflexivity.
    - destruct IH as [I1 I2]. destruct (is_fun p) eqn:Hf; [|apply obj_pointer; assumption].
      destruct p as [q' k'|q' k' n'|q' a' c' p'|q' d' e'|q' cc' rq' [r'|] ps' v' ne'|q' x']; try discriminate Hf.
      + apply fun_pointer; apply I2.
      + intros x Hm. cbn [meaning] in Hm. destruct cc'; discriminate Hm.
    - destruct IH as [I1 _]. intros x Hm Hg. cbn [meaning] in Hm. destruct (meaning el) as [[c [d|]]|] eqn:Hc; try discriminate. injection Hm as <-.
      unfold good_cxx in Hg. cbn [fst snd] in Hg. rewrite good_more in Hg. apply andb_prop in Hg. destruct Hg as [G1 G2].
      destruct (I1 (c, None) Hc) as (R1 & R2 & R3 & R4); [unfold good_cxx; cbn [fst snd]; rewrite G1; reflexivity|]. cbn [fst snd arrT app] in *.
      destruct (tidy_quals _ q R2) as [Q1 Q2]. cbn [pre]. rewrite Q1, pre_more, post_more, R1. split; [reflexivity|]. split; [exact Q2|].
      cbn [post]. split; [|reflexivity]. rewrite !app_assoc, <- (app_assoc (L "[")). rewrite tok_r, R3 by exact R4.
      rewrite tok_dims by (destruct ds; [discriminate G2|discriminate]). reflexivity.
    - intros x Hm. discriminate Hm.
    - split.
      + destruct r as [r|]; [apply IHr|exact I].
      + destruct ps as [l|]; [|exact I]. eapply Forall_impl; [|exact IHp]. intros t Ht. apply Ht.
    - intros y Hm Hg. injection Hm as <-. cbn [fst snd arrT preT postT app]. unfold good_cxx in Hg. cbn [fst snd good good_base] in Hg. rewrite andb_true_r in Hg.
      pose proof (tidy_name [x] Hg) as Hn. unfold type_name in Hg. apply andb_prop in Hg. destruct Hg as [Hg _]. destruct (name_facts [x] Hg) as [N1 N2].
      destruct (tok_name [x] N1 N2) as (T1 & T2 & T3). unfold qualified in *. cbn [join] in *. cbn [pre post map]. rewrite app_nil_r, T1. auto.
  Qed.
End Text.

(** ** Reading the tokens back *)
Definition hd_is (k : tk) (l : list tk) : Prop := match l with x :: _ => x = k | [] => False end.
Lemma opt_read (b b' : bool) k Y Y' : ~ hd_is k Y -> ~ hd_is k Y' ->
  (if b then [k] else []) ++ Y = (if b' then [k] else []) ++ Y' -> b = b' /\ Y = Y'.
Proof.
  intros H H' He. destruct b, b'; cbn [app] in He; [injection He as He; auto| | |auto]; exfalso;
    [apply H'; rewrite <- He; reflexivity|apply H; rewrite He; reflexivity].
Qed.
Lemma quals_read qs : forall qs' Y Y', (forall q, ~ hd_is (qT q) Y) -> (forall q, ~ hd_is (qT q) Y') ->
  map qT qs ++ Y = map qT qs' ++ Y' -> qs = qs' /\ Y = Y'.
Proof.
  induction qs as [|q qs IH]; intros [|q' qs'] Y Y' H H' He; cbn [map app] in He; auto.
  - exfalso. apply (H q'). rewrite He. reflexivity.
  - exfalso. apply (H' q). rewrite <- He. reflexivity.
  - injection He as Hq He. destruct (IH _ _ _ H H' He) as [-> ->]. split; [|reflexivity]. f_equal. destruct q, q'; try reflexivity; discriminate Hq.
Qed.
Definition qn_stop (U : list tk) : Prop := match U with P a :: P b :: W _ :: _ => ~ (a = ch ":" /\ b = ch ":") | _ => True end.
Lemma qn_read n : forall n' U U', n <> [] -> n' <> [] -> qn_stop U -> qn_stop U' -> qnT n ++ U = qnT n' ++ U' -> n = n' /\ U = U'.
Proof.
  induction n as [|x n IH]; intros n' U U' Hn Hn' HU HU' He; [congruence|]. destruct n' as [|x' n']; [congruence|].
  destruct n as [|y n], n' as [|y' n'].
  - cbn in He. injection He as -> ->. auto.
  - exfalso. change (qnT (x' :: y' :: n')) with (W x' :: P (ch ":") :: P (ch ":") :: qnT (y' :: n')) in He. cbn [qnT app] in He. injection He as _ He.
    rewrite He in HU. destruct n'; cbn in HU; tauto.
  - exfalso. change (qnT (x :: y :: n)) with (W x :: P (ch ":") :: P (ch ":") :: qnT (y :: n)) in He. cbn [qnT app] in He. injection He as _ He.
    rewrite <- He in HU'. destruct n; cbn in HU'; tauto.
  - change (qnT (x' :: y' :: n')) with (W x' :: P (ch ":") :: P (ch ":") :: qnT (y' :: n')) in He.
    change (qnT (x :: y :: n)) with (W x :: P (ch ":") :: P (ch ":") :: qnT (y :: n)) in He. cbn [app] in He. injection He as Hx He.
    destruct (IH (y' :: n') U U') as [H1 H2]; try discriminate; try assumption. subst x'. rewrite H1, H2. auto.
Qed.
Lemma qn_hd n : n <> [] -> exists x l, In x n /\ qnT n = W x :: l.
Proof. destruct n as [|x [|y n]]; intros H; [congruence| |]; eexists _, _; (split; [left; reflexivity|reflexivity]). Qed.

(** Pointers with what stands in front of them. *)
Inductive opening := O0 | O1 | O2 (cc : call_conv).
Definition openT (o : opening) : list tk := match o with O0 => [] | O1 => [P (ch "(")] | O2 cc => P (ch "(") :: ccT cc end.
Definition itemT (i : ptr * opening) : list tk := ptrT (fst i) (openT (snd i)).
Definition kw_in (w : str) : Prop := In w keywords.
Definition name_word (k : tk) : Prop := exists w, k = W w /\ ~ In w keywords.
Definition item_start (l : list tk) : Prop :=
  match l with
  | k :: _ => k = W (L "__unaligned") \/ k = P (ch "(") \/ name_word k \/ k = P (ch "*") \/ k = P (ch "&")
  | [] => False
  end.
Lemma name_hd n : cxx_name n = true -> n <> [] /\ exists x l, ~ In x keywords /\ qnT n = W x :: l.
Proof.
  intros H. destruct (name_facts n H) as [Hn Hf]. split; [exact Hn|]. destruct (qn_hd n Hn) as (x & l & Hi & Hq). exists x, l. split; [|exact Hq].
  rewrite Forall_forall in Hf. apply (word_facts x (Hf x Hi)).
Qed.
Definition tailp (p : ptr) : list tk := match p_cls p with Some n => qnT n ++ [P (ch ":"); P (ch ":")] | None => [] end ++ affT (p_aff p) ++ map qT (p_qs p).
Lemma tailp_start p Y : good_ptr p = true -> exists k l, tailp p ++ Y = k :: l /\ (name_word k \/ k = P (ch "*") \/ k = P (ch "&")).
Proof.
  intros Hg. unfold tailp. destruct p as [u [n|] a qs]; cbn [p_cls p_aff p_qs].
  - cbn in Hg. destruct (name_hd n Hg) as (_ & x & l & Hx & ->). eexists _, _. split; [reflexivity|]. left. exists x. auto.
  - destruct a; eexists _, _; (split; [reflexivity|]); auto.
Qed.
Lemma item_split i Y : itemT i ++ Y = (if p_un (fst i) then [W (L "__unaligned")] else []) ++ openT (snd i) ++ tailp (fst i) ++ Y.
Proof. unfold itemT, ptrT, tailp. rewrite <- !app_assoc. reflexivity. Qed.
Lemma item_starts i Y : good_ptr (fst i) = true -> item_start (itemT i ++ Y).
Proof.
  intros Hg. rewrite item_split. destruct (tailp_start (fst i) Y Hg) as (k & l & Ht & Hk).
  destruct (p_un (fst i)); [cbn; auto|]. destruct (snd i); cbn [openT app]; [|cbn; auto|cbn; auto]. rewrite Ht. cbn. tauto.
Qed.
Lemma kw_not_name w : In w keywords -> ~ name_word (W w).
Proof. intros H (x & Hx & Hn). injection Hx as ->. contradiction. Qed.
Lemma in_keywords w : existsb (str_eqb w) keywords = true -> In w keywords.
Proof. apply seen_iff. Qed.
Definition bstop (X : list tk) : Prop := ~ hd_is (W (L "double")) X /\ ~ hd_is (P (ch ":")) X.
Definition no_hd (X : list tk) : Prop := (forall q, ~ hd_is (qT q) X) /\ bstop X.
Definition halt (X : list tk) : Prop :=
  (forall i Y, good_ptr (fst i) = true -> X <> itemT i ++ Y) /\ no_hd X /\ ~ hd_is (P (ch "&")) X.
Definition isref (a : affinity) : Prop := a <> APointer.

Lemma cc_start c : exists w l, ccT c = W w :: l /\ In w keywords.
Proof. destruct c; eexists _, _; (split; [vm_compute; reflexivity|apply in_keywords; vm_compute; reflexivity]). Qed.
Lemma cc_read c c' Y Y' : ccT c ++ Y = ccT c' ++ Y' -> c = c' /\ Y = Y'.
Proof.
  destruct c, c'; vm_compute; intros H; try discriminate H; (split; [reflexivity|]); injection H; auto.
Qed.
Lemma aff_read a a' Y Y' : (isref a -> ~ hd_is (P (ch "&")) Y) -> (isref a' -> ~ hd_is (P (ch "&")) Y') -> affT a ++ Y = affT a' ++ Y' -> a = a' /\ Y = Y'.
Proof.
  intros H H' He. destruct a, a'; cbn [affT app] in He; try discriminate He; try (injection He as He; auto; fail).
  - exfalso. injection He as He. apply H; [discriminate|]. rewrite He. reflexivity.
  - exfalso. injection He as He. apply H'; [discriminate|]. rewrite <- He. reflexivity.
Qed.
Lemma tailp_read p p' Y Y' : good_ptr p = true -> good_ptr p' = true ->
  (forall q, ~ hd_is (qT q) Y) -> (forall q, ~ hd_is (qT q) Y') ->
  (isref (p_aff p) -> ~ hd_is (P (ch "&")) Y) -> (isref (p_aff p') -> ~ hd_is (P (ch "&")) Y') ->
  tailp p ++ Y = tailp p' ++ Y' -> p_cls p = p_cls p' /\ p_aff p = p_aff p' /\ p_qs p = p_qs p' /\ Y = Y'.
Proof.
  destruct p as [u n a qs], p' as [u' n' a' qs']. unfold tailp. cbn [p_cls p_aff p_qs]. intros G G' HY HY' HR HR' He.
  rewrite <- !app_assoc in He.
  assert (Hr : forall a (qs : list qual) Y, (isref a -> ~ hd_is (P (ch "&")) Y) -> isref a -> ~ hd_is (P (ch "&")) (map qT qs ++ Y)).
  { intros b rs Z HZ Hb. destruct rs as [|r rs]; [exact (HZ Hb)|]. cbn. destruct r; discriminate. }
  assert (Hn : n = n' /\ affT a ++ map qT qs ++ Y = affT a' ++ map qT qs' ++ Y').
  { destruct n as [n|], n' as [n'|].
    - cbn in G, G'. destruct (name_facts n G) as [N1 _]. destruct (name_facts n' G') as [N2 _]. rewrite <- !app_assoc in He.
      apply qn_read in He; try assumption; [|destruct a; exact I|destruct a'; exact I].
      destruct He as [-> He]. cbn [app] in He. injection He as He. auto.
    - exfalso. cbn in G. destruct (name_hd n G) as (_ & x & l & _ & Hx). rewrite Hx in He. destruct a'; discriminate He.
    - exfalso. cbn in G'. destruct (name_hd n' G') as (_ & x & l & _ & Hx). rewrite Hx in He. destruct a; discriminate He.
    - auto. }
  destruct Hn as [-> Hn]. apply aff_read in Hn; [|apply Hr; exact HR|apply Hr; exact HR']. destruct Hn as [-> Hn].
  apply quals_read in Hn; try assumption. destruct Hn as [-> ->]. auto.
Qed.
Lemma item_read i i' Y Y' : good_ptr (fst i) = true -> good_ptr (fst i') = true ->
  (forall q, ~ hd_is (qT q) Y) -> (forall q, ~ hd_is (qT q) Y') ->
  (isref (p_aff (fst i)) -> ~ hd_is (P (ch "&")) Y) -> (isref (p_aff (fst i')) -> ~ hd_is (P (ch "&")) Y') ->
  itemT i ++ Y = itemT i' ++ Y' -> i = i' /\ Y = Y'.
Proof.
  intros G G' HY HY' HR HR' He. rewrite !item_split in He.
  destruct (tailp_start _ Y G) as (k & l & Ht & Hk). destruct (tailp_start _ Y' G') as (k' & l' & Ht' & Hk').
  assert (Hun : forall o k l Z, (name_word k \/ k = P (ch "*") \/ k = P (ch "&")) -> Z = k :: l -> ~ hd_is (W (L "__unaligned")) (openT o ++ Z)).
  { intros o k0 l0 Z Hk0 ->. destruct o; cbn; try discriminate. intros ->. destruct Hk0 as [Hk0|[Hk0|Hk0]]; try discriminate Hk0.
    revert Hk0. apply kw_not_name, in_keywords. vm_compute. reflexivity. }
  apply opt_read in He; [|exact (Hun _ _ _ _ Hk Ht)|exact (Hun _ _ _ _ Hk' Ht')]. destruct He as [Hu He].
  assert (Hno : forall k l c (Z : list tk), (name_word k \/ k = P (ch "*") \/ k = P (ch "&")) -> k :: l <> ccT c ++ Z).
  { intros k0 l0 c Z Hk0 Heq. destruct (cc_start c) as (w & m & Hw & Hin). rewrite Hw in Heq. cbn [app] in Heq. injection Heq as -> _.
    destruct Hk0 as [Hk0|[Hk0|Hk0]]; try discriminate Hk0. revert Hk0. apply kw_not_name, Hin. }
  assert (Ho : snd i = snd i' /\ tailp (fst i) ++ Y = tailp (fst i') ++ Y').
  { destruct (snd i) as [| |c], (snd i') as [| |c']; cbn [openT app] in He; try (split; [reflexivity|exact He]).
    - exfalso. rewrite Ht in He. injection He as -> _. destruct Hk as [(w & Hw & _)|[Hk|Hk]]; discriminate.
    - exfalso. rewrite Ht in He. injection He as -> _. destruct Hk as [(w & Hw & _)|[Hk|Hk]]; discriminate.
    - exfalso. rewrite Ht' in He. injection He as <- _. destruct Hk' as [(w & Hw & _)|[Hk'|Hk']]; discriminate.
    - injection He as He. auto.
    - exfalso. injection He as He. rewrite Ht in He. exact (Hno _ _ _ _ Hk He).
    - exfalso. rewrite Ht' in He. injection He as <- _. destruct Hk' as [(w & Hw & _)|[Hk'|Hk']]; discriminate.
    - exfalso. injection He as He. rewrite Ht' in He. exact (Hno _ _ _ _ Hk' (eq_sym He)).
    - injection He as He. apply cc_read in He. destruct He as [-> He]. auto. }
  destruct Ho as [Ho He']. destruct (tailp_read _ _ _ _ G G' HY HY' HR HR' He') as (E1 & E2 & E3 & E4).
  split; [|exact E4]. destruct i as [[u n a qs] o], i' as [[u' n' a' qs'] o']. cbn in *. congruence.
Qed.
Fixpoint linked (l : list (ptr * opening)) : Prop :=
  match l with
  | i :: r => match r with j :: _ => isref (p_aff (fst i)) -> snd j <> O0 | [] => True end /\ linked r
  | [] => True
  end.
Lemma qT_kw q : exists w, qT q = W w /\ In w keywords /\ w <> L "__unaligned".
Proof. destruct q; eexists; (split; [reflexivity|split; [apply in_keywords; vm_compute; reflexivity|discriminate]]). Qed.
Lemma item_start_facts Y : item_start Y -> no_hd Y.
Proof.
  intros H. destruct Y as [|k Y]; [destruct H|]. cbn in H.
  assert (Hk : forall w, In w keywords -> k = W w -> w = L "__unaligned").
  { intros w Hw ->. destruct H as [H|[H|[H|[H|H]]]]; try discriminate H; [injection H as ->; reflexivity|]. exfalso. revert H. apply kw_not_name, Hw. }
  split; [|split].
  - intros q Hq. cbn in Hq. destruct (qT_kw q) as (w & Hw & Hin & Hne). apply Hne, Hk; [exact Hin|]. rewrite <- Hw. exact Hq.
  - intros Hq. cbn in Hq. discriminate (Hk (L "double") (in_keywords (L "double") ltac:(vm_compute; reflexivity)) Hq).
  - intros Hq. cbn in Hq. subst k. destruct H as [H|[H|[(w & H & _)|[H|H]]]]; discriminate H.
Qed.
Lemma start_facts Y : item_start Y \/ halt Y -> no_hd Y.
Proof. intros [H|H]; [apply item_start_facts; exact H|apply H]. Qed.
Lemma items_read l : forall l' X X', Forall (fun i => good_ptr (fst i) = true) l -> Forall (fun i => good_ptr (fst i) = true) l' ->
  linked l -> linked l' -> halt X -> halt X' -> concat (map itemT l) ++ X = concat (map itemT l') ++ X' -> l = l' /\ X = X'.
Proof.
  assert (Hnext : forall l X, Forall (fun i => good_ptr (fst i) = true) l -> halt X -> item_start (concat (map itemT l) ++ X) \/ halt (concat (map itemT l) ++ X)).
  { clear l. intros [|i l] X Hg HX; [right; exact HX|left]. cbn [map concat]. rewrite <- app_assoc. apply item_starts. inversion Hg; assumption. }
  assert (Hamp : forall i (l : list (ptr * opening)) X, Forall (fun i => good_ptr (fst i) = true) (i :: l) -> linked (i :: l) -> halt X ->
    isref (p_aff (fst i)) -> ~ hd_is (P (ch "&")) (concat (map itemT l) ++ X)).
  { clear l. intros i l X Hg Hl HX Hr. destruct l as [|j l].
    - cbn [map concat app]. apply HX.
    - destruct Hl as [Hl _]. specialize (Hl Hr). cbn [map concat]. rewrite <- app_assoc, item_split. destruct (p_un (fst j)); [discriminate|].
      destruct (snd j); [congruence|discriminate|discriminate]. }
  induction l as [|i l IH]; intros [|i' l'] X X' Hg Hg' Hl Hl' HX HX' He; auto.
  - exfalso. cbn [map concat app] in He. rewrite <- app_assoc in He. revert He. apply (proj1 HX). inversion Hg'; assumption.
  - exfalso. cbn [map concat app] in He. rewrite <- app_assoc in He. symmetry in He. revert He. apply (proj1 HX'). inversion Hg; assumption.
  - cbn [map concat] in He. rewrite <- !app_assoc in He. inversion Hg; subst. inversion Hg'; subst.
    apply item_read in He; try assumption.
    + destruct He as [-> He]. destruct Hl as [_ Hl], Hl' as [_ Hl']. destruct (IH l' X X') as [-> ->]; auto.
    + apply start_facts, Hnext; assumption.
    + apply start_facts, Hnext; assumption.
    + apply Hamp; assumption.
    + apply Hamp; assumption.
Qed.

(** The parts of a type in front of the name. *)
Fixpoint sk (c : cty) : list (ptr * opening) :=
  match c with
  | CBase _ _ => []
  | CPtr p c => sk c ++ [(p, O0)]
  | CPtrArr p _ c => sk c ++ [(p, O1)]
  | CPtrFun p g _ c => sk c ++ [(p, O2 (g_cc g))]
  end.
Fixpoint bs (c : cty) : cbase * list qual :=
  match c with CBase b qs => (b, qs) | CPtr _ c | CPtrArr _ _ c | CPtrFun _ _ _ c => bs c end.
Lemma pre_sk c : preT c = baseT (fst (bs c)) ++ map qT (snd (bs c)) ++ concat (map itemT (sk c)).
Proof.
  induction c as [b qs|p c IH|p d c IH|p g ps c IH]; cbn [preT bs sk]; [cbn; rewrite app_nil_r; reflexivity| | |];
    rewrite IH, map_app, concat_app, <- !app_assoc; cbn [map concat]; rewrite app_nil_r; reflexivity.
Qed.
Lemma linked_snoc l j : linked l -> (forall l0 i, l = l0 ++ [i] -> isref (p_aff (fst i)) -> snd j <> O0) -> linked (l ++ [j]).
Proof.
  induction l as [|i l IH]; intros Hl Hj; [cbn; auto|]. destruct Hl as [H1 H2]. cbn [app linked]. split.
  - destruct l as [|k l]; cbn [app]; [|exact H1]. apply (Hj [] i). reflexivity.
  - apply IH; [exact H2|]. intros l0 k ->. apply (Hj (i :: l0) k). reflexivity.
Qed.
Lemma sk_facts c : good c = true -> Forall (fun i => good_ptr (fst i) = true) (sk c) /\ linked (sk c) /\
  (forall l i, sk c = l ++ [i] -> isref (p_aff (fst i)) -> is_ref c = true) /\ good_base (fst (bs c)) = true.
Proof.
  assert (Hs : forall l (j : ptr * opening) P, P j -> forall l0 i, l ++ [j] = l0 ++ [i] -> P i).
  { intros l j Q HQ l0 i He. apply app_inj_tail in He. destruct He as [_ <-]. exact HQ. }
  assert (Hr : forall p : ptr, isref (p_aff p) -> match p_aff p with APointer => false | _ => true end = true).
  { intros p H. unfold isref in H. destruct (p_aff p); congruence. }
  induction c as [b qs|p c IH|p d c IH|p g ps c IH]; cbn [good sk bs is_ref]; intros Hg.
  - split; [constructor|]. split; [exact I|]. split; [intros [|? ?] i Hi; discriminate Hi|exact Hg].
  - apply andb_prop in Hg. destruct Hg as [Hg G3]. apply andb_prop in Hg. destruct Hg as [G1 G2].
    destruct (IH G2) as (I1 & I2 & I3 & I4). split; [apply Forall_app; auto|]. split; [|split; [|exact I4]].
    + apply linked_snoc; [exact I2|]. intros l0 i Hi Href. rewrite (I3 l0 i Hi Href) in G3. discriminate G3.
    + intros l i. apply (Hs _ _ (fun i => isref (p_aff (fst i)) -> _)). apply Hr.
  - apply andb_prop in Hg. destruct Hg as [Hg G2]. apply andb_prop in Hg. destruct Hg as [G1 G3].
    destruct (IH G2) as (I1 & I2 & I3 & I4). split; [apply Forall_app; auto|]. split; [|split; [|exact I4]].
    + apply linked_snoc; [exact I2|]. discriminate.
    + intros l i. apply (Hs _ _ (fun i => isref (p_aff (fst i)) -> _)). apply Hr.
  - apply andb_prop in Hg. destruct Hg as [Hg _]. apply andb_prop in Hg. destruct Hg as [G1 G2].
    destruct (IH G2) as (I1 & I2 & I3 & I4). split; [apply Forall_app; auto|]. split; [|split; [|exact I4]].
    + apply linked_snoc; [exact I2|]. discriminate.
    + intros l i. apply (Hs _ _ (fun i => isref (p_aff (fst i)) -> _)). apply Hr.
Qed.

(** Base types. *)
Definition tag_words : list str := map L ["class"; "struct"; "union"; "enum"]%string.
Definition prim_words : list str :=
  map L ["void"; "bool"; "char"; "signed"; "unsigned"; "char8_t"; "char16_t"; "char32_t"; "short"; "int"; "long";
         "__int64"; "wchar_t"; "float"; "double"; "auto"; "decltype"]%string.
Lemma prim_start k : (exists w l, tok (prim_text k) = W w :: l /\ In w prim_words) \/ tok (prim_text k) = W (L "std") :: P (ch ":") :: P (ch ":") :: [W (L "nullptr_t")].
Proof.
  destruct k; try (right; vm_compute; reflexivity);
    left; eexists _, _; (split; [vm_compute; reflexivity|apply seen_iff; vm_compute; reflexivity]).
Qed.
Lemma tag_start k : In (tag_text k) tag_words.
Proof. apply seen_iff. destruct k; vm_compute; reflexivity. Qed.
Lemma prim_read k k' Y Y' : ~ hd_is (W (L "double")) Y -> ~ hd_is (W (L "double")) Y' ->
  tok (prim_text k) ++ Y = tok (prim_text k') ++ Y' -> k = k' /\ Y = Y'.
Proof.
  intros H H' He. destruct k, k'; vm_compute in He; try discriminate He;
    try (split; [reflexivity|]; injection He; auto; fail); exfalso; injection He as He;
    try (apply H; rewrite He; reflexivity); try (apply H'; rewrite <- He; reflexivity); subst; auto.
Qed.
Lemma prim_kw w : In w prim_words -> In w keywords.
Proof. intros H. apply in_keywords. cbn [prim_words map In] in H. repeat (destruct H as [<- |H]; [vm_compute; reflexivity|]). destruct H. Qed.
Lemma tag_kw w : In w tag_words -> In w keywords /\ ~ In w prim_words /\ w <> L "std".
Proof.
  intros H. cbn [tag_words map In] in H.
  assert (Hn : forall w, existsb (str_eqb w) prim_words = false -> ~ In w prim_words).
  { intros x Hx Hi. apply seen_iff in Hi. congruence. }
  repeat (destruct H as [<- |H]; [split; [apply in_keywords; vm_compute; reflexivity|split; [apply Hn; vm_compute; reflexivity|discriminate]]|]). destruct H.
Qed.
Lemma base_read b b' Y Y' : good_base b = true -> good_base b' = true -> bstop Y -> bstop Y' ->
  baseT b ++ Y = baseT b' ++ Y' -> b = b' /\ Y = Y'.
Proof.
  assert (Hpt : forall k k' n (Y Z : list tk), tok (prim_text k) ++ Y = (W (tag_text k') :: qnT n) ++ Z -> False).
  { intros k k' n Z Z' He. destruct (tag_kw _ (tag_start k')) as (_ & T2 & T3).
    destruct (prim_start k) as [(w & l & Hw & Hin)|Hw]; rewrite Hw in He; cbn [app] in He; injection He as He _; subst; congruence. }
  assert (Hpc : forall k x (Y Z : list tk), cxx_word x = true -> bstop Z -> tok (prim_text k) ++ Y = [W x] ++ Z -> False).
  { intros k x Z Z' Hx HZ He. destruct (word_facts x Hx) as (_ & _ & _ & Hk).
    destruct (prim_start k) as [(w & l & Hw & Hin)|Hw]; rewrite Hw in He; cbn [app] in He.
    - injection He as He _. subst. apply Hk, prim_kw, Hin.
    - injection He as _ He. destruct HZ as [_ HZ]. apply HZ. rewrite <- He. reflexivity. }
  assert (Htc : forall k n x (Y Z : list tk), cxx_word x = true -> (W (tag_text k) :: qnT n) ++ Y = [W x] ++ Z -> False).
  { intros k n x Z Z' Hx He. destruct (word_facts x Hx) as (_ & _ & _ & Hk). cbn [app] in He. injection He as He _. subst. apply Hk, tag_kw, tag_start. }
  assert (Hw : forall x, type_name [x] = true -> cxx_word x = true).
  { intros x H. unfold type_name in H. apply andb_prop in H. destruct H as [H _]. apply name_facts in H. destruct H as [_ H]. inversion H; assumption. }
  assert (Hn : forall n, type_name n = true -> n <> []).
  { intros n H. unfold type_name in H. apply andb_prop in H. destruct H as [H _]. apply (name_facts n H). }
  assert (Hst : forall Z, bstop Z -> qn_stop Z).
  { intros [|[w|a] [|[w2|b0] [|[w3|c0] Z]]] [_ HZ]; try exact I. intros [-> _]. apply HZ. reflexivity. }
  intros G G' HY HY' He. destruct b as [k|k n|x], b' as [k'|k' n'|x']; cbn [baseT good_base] in *.
  - destruct (prim_read k k' Y Y') as [-> ->]; [apply HY|apply HY'|exact He|auto].
  - destruct (Hpt _ _ _ _ _ He).
  - destruct (Hpc _ _ _ _ (Hw _ G') HY' He).
  - symmetry in He. destruct (Hpt _ _ _ _ _ He).
  - cbn [app] in He. injection He as Hk He. apply qn_read in He; auto. destruct He as [-> ->].
    assert (k = k') as -> by (destruct k, k'; try reflexivity; discriminate Hk). auto.
  - destruct (Htc _ _ _ _ _ (Hw _ G') He).
  - symmetry in He. destruct (Hpc _ _ _ _ (Hw _ G) HY He).
  - symmetry in He. destruct (Htc _ _ _ _ _ (Hw _ G) He).
  - cbn [app] in He. injection He as -> ->. auto.
Qed.
Lemma pre_read c c' X X' : good c = true -> good c' = true -> halt X -> halt X' ->
  preT c ++ X = preT c' ++ X' -> bs c = bs c' /\ sk c = sk c' /\ X = X'.
Proof.
  intros G G' HX HX' He. rewrite !pre_sk, <- !app_assoc in He.
  destruct (sk_facts c G) as (F1 & F2 & _ & F4). destruct (sk_facts c' G') as (F1' & F2' & _ & F4').
  assert (Hnext : forall l X, Forall (fun i => good_ptr (fst i) = true) l -> halt X -> no_hd (concat (map itemT l) ++ X)).
  { intros [|i l] Z Hg HZ; [apply HZ|]. apply item_start_facts. cbn [map concat]. rewrite <- app_assoc. apply item_starts. inversion Hg; assumption. }
  assert (Hq : forall qs Z, no_hd Z -> bstop (map qT qs ++ Z)).
  { intros [|q qs] Z HZ; [apply HZ|]. split; destruct q; discriminate. }
  apply base_read in He; try assumption; [|apply Hq, Hnext; assumption|apply Hq, Hnext; assumption]. destruct He as [Hb He].
  apply quals_read in He; [|apply Hnext; assumption|apply Hnext; assumption]. destruct He as [Hqs He].
  apply items_read in He; try assumption. destruct He as [Hs He]. split; [|auto].
  destruct (bs c), (bs c'). cbn in *. congruence.
Qed.

(** What may follow a type. *)
Definition stop (X : list tk) : Prop := match X with [] => True | k :: _ => k = P (ch ",") \/ k = P (ch ")") end.
Lemma stop_hd X k : stop X -> k <> P (ch ",") -> k <> P (ch ")") -> ~ hd_is k X.
Proof. destruct X as [|x X]; intros H H1 H2 H3; [exact H3|]. cbn in H, H3. subst x. destruct H; auto. Qed.
Lemma post_stop c X : stop X -> stop (postT c ++ X).
Proof. intros H. induction c as [b qs|p c IH|p d c IH|p g ps c IH]; cbn [postT app]; try assumption; right; reflexivity. Qed.
Lemma halt_hd X : match X with [] => True | k :: _ => exists a, k = P a /\ a <> ch "(" /\ a <> ch "*" /\ a <> ch "&" /\ a <> ch ":" end -> halt X.
Proof.
  destruct X as [|k X]; intros H.
  - split; [|repeat split; auto]. intros i Y Hg He. pose proof (item_starts i Y Hg) as Hi. rewrite <- He in Hi. destruct Hi.
  - destruct H as (a & -> & H1 & H2 & H3 & H4). split; [|split; [split; [|split]|]].
    + intros i Y Hg He. pose proof (item_starts i Y Hg) as Hi. rewrite <- He in Hi. cbn in Hi.
      destruct Hi as [Hi|[Hi|[(w & Hi & _)|[Hi|Hi]]]]; try discriminate Hi; injection Hi; auto.
    + intros q. destruct q; discriminate.
    + discriminate.
    + intros Hh. injection Hh; auto.
    + intros Hh. injection Hh; auto.
Qed.
Lemma stop_halt X : stop X -> halt X.
Proof. intros H. apply halt_hd. destruct X as [|k X]; [exact I|]. destruct H as [-> | ->]; eexists; (split; [reflexivity|repeat split; discriminate]). Qed.

(** Array dimensions. *)
Lemma dim_read x x' Y Y' : dimT x ++ Y = dimT x' ++ Y' -> x = x' /\ Y = Y'.
Proof.
  unfold dimT. cbn [app]. intros He. injection He as He. rewrite <- !app_assoc in He.
  destruct (N.eqb_spec x 0) as [->|Hx], (N.eqb_spec x' 0) as [->|Hx']; cbn [app] in He; try discriminate He; injection He.
  - auto.
  - intros -> Hd. split; [|reflexivity]. rewrite <- (proj1 (proj2 (dec_N_correct x))), <- (proj1 (proj2 (dec_N_correct x'))), Hd. reflexivity.
Qed.
Lemma dims_read d : forall d' Y Y', ~ hd_is (P (ch "[")) Y -> ~ hd_is (P (ch "[")) Y' ->
  concat (map dimT d) ++ Y = concat (map dimT d') ++ Y' -> d = d' /\ Y = Y'.
Proof.
  induction d as [|x d IH]; intros [|x' d'] Y Y' H H' He; cbn [map concat] in He; auto.
  - exfalso. apply H. cbn [app] in He. rewrite He. reflexivity.
  - exfalso. apply H'. cbn [app] in He. rewrite <- He. reflexivity.
  - rewrite <- !app_assoc in He. apply dim_read in He. destruct He as [-> He]. destruct (IH _ _ _ H H' He) as [-> ->]. auto.
Qed.
Definition good_arr (d : option (list N)) : bool := match d with Some d => good_dims d | None => true end.
Lemma arr_read d d' Y Y' : good_arr d = true -> good_arr d' = true -> ~ hd_is (P (ch "[")) Y -> ~ hd_is (P (ch "[")) Y' ->
  arrT d ++ Y = arrT d' ++ Y' -> d = d' /\ Y = Y'.
Proof.
  intros G G' H H' He. assert (Ha : forall d, arrT d = concat (map dimT (match d with Some d => d | None => [] end))) by (intros [?|]; reflexivity).
  rewrite !Ha in He. apply dims_read in He; try assumption. destruct He as [Hd ->]. split; [|reflexivity].
  destruct d as [[|x d]|], d' as [[|x' d']|]; try discriminate; congruence.
Qed.

(** What follows a parameter list. *)
Lemma tail_read g g' Y Y' : stop Y -> stop Y' -> g_cc g = g_cc g' -> g_variadic g = g_variadic g' ->
  tailT g ++ Y = tailT g' ++ Y' -> g = g' /\ Y = Y'.
Proof.
  destruct g as [cc [[[a b] c] d] n r v], g' as [cc' [[[a' b'] c'] d'] n' r' v']. unfold tailT. cbn [g_quals g_noexcept g_rq g_cc g_variadic].
  intros HY HY' -> -> He. rewrite <- !app_assoc in He.
  set (R := match r with Some RQReference => [P (ch "&")] | Some RQRValueReference => [P (ch "&"); P (ch "&")] | None => [] end) in *.
  set (R' := match r' with Some RQReference => [P (ch "&")] | Some RQRValueReference => [P (ch "&"); P (ch "&")] | None => [] end) in *.
  assert (Hw : forall r w Y, stop Y -> ~ hd_is (W w) (match r with Some RQReference => [P (ch "&")] | Some RQRValueReference => [P (ch "&"); P (ch "&")] | None => [] end ++ Y)).
  { intros [[]|] w Z HZ; cbn; try discriminate. apply stop_hd; [exact HZ|discriminate|discriminate]. }
  assert (Ho : forall (b : bool) (w v : str) (Z : list tk), w <> v -> ~ hd_is (W w) Z -> ~ hd_is (W w) ((if b then [W v] else []) ++ Z)).
  { intros [] w0 v0 Z Hne HZ; [|exact HZ]. cbn. intros H. injection H as ->. congruence. }
  apply opt_read in He; [|repeat (apply Ho; [discriminate|]); apply Hw; assumption..]. destruct He as [-> He].
  apply opt_read in He; [|repeat (apply Ho; [discriminate|]); apply Hw; assumption..]. destruct He as [-> He].
  apply opt_read in He; [|repeat (apply Ho; [discriminate|]); apply Hw; assumption..]. destruct He as [-> He].
  apply opt_read in He; [|repeat (apply Ho; [discriminate|]); apply Hw; assumption..]. destruct He as [-> He].
  apply opt_read in He; [|repeat (apply Ho; [discriminate|]); apply Hw; assumption..]. destruct He as [-> He].
  assert (Hr : r = r' /\ Y = Y').
  { subst R R'. assert (HA : forall Z : list tk, stop Z -> ~ hd_is (P (ch "&")) Z) by (intros Z HZ; apply stop_hd; [exact HZ|discriminate|discriminate]).
    pose proof (HA Y HY) as A1. pose proof (HA Y' HY') as A2.
    destruct r as [[]|], r' as [[]|]; cbn [app] in He; try (injection He as He); auto; exfalso;
      first [apply A1; rewrite He; reflexivity|apply A2; rewrite <- He; reflexivity]. }
  destruct Hr as [-> ->]. auto.
Qed.

(** Induction over types and the types of parameters. *)
Section CtyInd.
  Variable Q : cty -> Prop.
  Let params_ok (ps : option (list (cty * option (list N)))) : Prop := match ps with Some l => Forall (fun x => Q (fst x)) l | None => True end.
  Hypothesis Hb : forall b qs, Q (CBase b qs).
  Hypothesis Hp : forall p c, Q c -> Q (CPtr p c).
  Hypothesis Ha : forall p d c, Q c -> Q (CPtrArr p d c).
  Hypothesis Hf : forall p g ps c, params_ok ps -> Q c -> Q (CPtrFun p g ps c).
  Fixpoint cty_ind' (c : cty) : Q c :=
    match c with
    | CBase b qs => Hb b qs
    | CPtr p c => Hp p c (cty_ind' c)
    | CPtrArr p d c => Ha p d c (cty_ind' c)
    | CPtrFun p g ps c =>
      Hf p g ps c
        (match ps as o return params_ok o with
         | Some l => (fix go (l : list (cty * option (list N))) : Forall (fun x => Q (fst x)) l :=
             match l with [] => Forall_nil _ | x :: l => Forall_cons x (cty_ind' (fst x)) (go l) end) l
         | None => I
         end) (cty_ind' c)
    end.
End CtyInd.

Definition post_reads (c : cty) : Prop := forall c' X X', good c = true -> good c' = true -> sk c = sk c' -> bs c = bs c' -> stop X -> stop X' ->
  postT c ++ X = postT c' ++ X' -> c = c' /\ X = X'.
Definition type_reads (x : cxx) : Prop := forall x' X X', good_cxx x = true -> good_cxx x' = true -> stop X -> stop X' ->
  typeT x ++ X = typeT x' ++ X' -> x = x' /\ X = X'.
Lemma arr_post_halt d c X : stop X -> halt (arrT d ++ postT c ++ X).
Proof.
  intros HX. destruct d as [[|n d]|]; cbn [arrT map concat app]; try (apply stop_halt, post_stop; exact HX).
  apply halt_hd. cbn. eexists. split; [reflexivity|repeat split; discriminate].
Qed.
Lemma post_br c X : stop X -> ~ hd_is (P (ch "[")) (postT c ++ X).
Proof. intros H. apply stop_hd; [apply post_stop; exact H|discriminate|discriminate]. Qed.
Lemma type_of_post c d : post_reads c -> type_reads (c, d).
Proof.
  intros Hp [c' d'] X X' G G' HX HX' He. unfold good_cxx in G, G'. cbn [fst snd] in *. apply andb_prop in G, G'. destruct G as [G1 G2], G' as [G1' G2'].
  unfold typeT in He. cbn [fst snd] in He. rewrite <- !app_assoc in He.
  apply pre_read in He; try assumption; [|apply arr_post_halt; assumption|apply arr_post_halt; assumption]. destruct He as (Hb & Hs & He).
  apply arr_read in He; [|exact G2|exact G2'|apply post_br; assumption|apply post_br; assumption]. destruct He as [-> He].
  destruct (Hp c' X X') as [-> ->]; auto.
Qed.

(** Parameter lists. *)
Fixpoint restT (l : list cxx) (v : bool) : list tk :=
  match l with
  | [] => (if v then P (ch ",") :: dotsT else []) ++ [P (ch ")")]
  | x :: l => P (ch ",") :: typeT x ++ restT l v
  end.
Lemma params_rest x l v Y : paramsT (map typeT (x :: l)) v ++ Y = P (ch "(") :: typeT x ++ restT l v ++ Y.
Proof.
  unfold paramsT. cbn [map app]. f_equal. rewrite <- app_assoc.
  transitivity (typeT x ++ (restT l v) ++ Y); [|rewrite ?app_assoc; reflexivity].
  revert x. induction l as [|y l IH]; intros x.
  - cbn [map joinT restT]. destruct v; cbn [app]; rewrite <- ?app_assoc; reflexivity.
  - change (joinT (typeT x :: map typeT (y :: l))) with (typeT x ++ P (ch ",") :: joinT (typeT y :: map typeT l)). rewrite <- app_assoc. f_equal.
    cbn [app restT]. f_equal. rewrite <- (app_assoc (typeT y)). apply IH.
Qed.
Lemma base_start b : good_base b = true -> exists w l, baseT b = W w :: l.
Proof.
  destruct b as [k|k n|x]; intros G; cbn [baseT]; [|eauto|eauto]. destruct (prim_start k) as [(w & l & Hw & _)|Hw]; rewrite Hw; eauto.
Qed.
Lemma type_start x Y : good_cxx x = true -> exists w l, typeT x ++ Y = W w :: l.
Proof.
  unfold good_cxx. intros G. apply andb_prop in G. destruct G as [G _]. destruct (sk_facts _ G) as (_ & _ & _ & Hb).
  destruct (base_start _ Hb) as (w & l & Hl). unfold typeT. rewrite pre_sk, <- !app_assoc, Hl. cbn [app]. eauto.
Qed.
Lemma rest_stop l v Y : stop (restT l v ++ Y).
Proof. destruct l as [|x l]; [destruct v|]; cbn; auto. Qed.
Lemma rest_read l v : forall l' v' Y Y', Forall type_reads l -> forallb good_cxx l = true -> forallb good_cxx l' = true ->
  restT l v ++ Y = restT l' v' ++ Y' -> l = l' /\ v = v' /\ Y = Y'.
Proof.
  induction l as [|x l IH]; intros [|x' l'] v' Y Y' Hr G G' He.
  - destruct v, v'; cbn in He; try discriminate He; injection He; auto.
  - exfalso. cbn [forallb] in G'. apply andb_prop in G'. destruct G' as [G1 _]. cbn [restT app] in He. rewrite <- !app_assoc in He.
    destruct (type_start x' (restT l' v' ++ Y') G1) as (w & m & Hw). rewrite Hw in He. destruct v; discriminate He.
  - exfalso. cbn [forallb] in G. apply andb_prop in G. destruct G as [G1 _]. cbn [restT app] in He. rewrite <- !app_assoc in He.
    destruct (type_start x (restT l v ++ Y) G1) as (w & m & Hw). rewrite Hw in He. destruct v'; discriminate He.
  - inversion Hr as [|? ? H1 H2]; subst. cbn [forallb] in G, G'. apply andb_prop in G, G'. destruct G as [G1 G2], G' as [G1' G2'].
    cbn [restT app] in He. injection He as He. rewrite <- !app_assoc in He.
    apply H1 in He; try assumption; try apply rest_stop. destruct He as [-> He]. destruct (IH l' v' Y Y') as (-> & -> & ->); auto.
Qed.
Definition voidx : cxx := (CBase (BPrim Void) [], None).
Definition plist (ps : option (list cxx)) : list cxx := match ps with None => [voidx] | Some l => l end.
Definition good_params (ps : option (list cxx)) : bool := match ps with None => true | Some l => forallb (fun x => good_cxx x && negb (is_void x)) l end.
Lemma plist_good ps : good_params ps = true -> forallb good_cxx (plist ps) = true.
Proof.
  destruct ps as [l|]; [|reflexivity]. cbn. rewrite !forallb_forall. intros H x Hx. specialize (H x Hx). apply andb_prop in H. apply H.
Qed.
Lemma plist_inj ps ps' : good_params ps = true -> good_params ps' = true -> plist ps = plist ps' -> ps = ps'.
Proof.
  destruct ps as [l|], ps' as [l'|]; cbn [plist]; intros G G' He; [congruence| | |reflexivity].
  - subst l. discriminate G.
  - subst l'. discriminate G'.
Qed.
Lemma params_read ps v ps' v' Y Y' : Forall type_reads (plist ps) -> good_params ps = true -> good_params ps' = true ->
  paramsT (map typeT (plist ps)) v ++ Y = paramsT (map typeT (plist ps')) v' ++ Y' -> ps = ps' /\ v = v' /\ Y = Y'.
Proof.
  intros Hr G G' He. pose proof (plist_good ps G) as K. pose proof (plist_good ps' G') as K'. pose proof (plist_inj ps ps' G G') as Hi.
  enough (plist ps = plist ps' /\ v = v' /\ Y = Y') as (Hp & Hv & HY) by auto. clear Hi.
  destruct (plist ps) as [|x l], (plist ps') as [|x' l'].
  - destruct v, v'; cbn in He; try discriminate He; injection He; auto.
  - exfalso. rewrite params_rest in He. cbn [forallb] in K'. apply andb_prop in K'. destruct K' as [G1 _].
    destruct (type_start x' (restT l' v' ++ Y') G1) as (w & m & Hw). rewrite Hw in He. destruct v; discriminate He.
  - exfalso. rewrite params_rest in He. cbn [forallb] in K. apply andb_prop in K. destruct K as [G1 _].
    destruct (type_start x (restT l v ++ Y) G1) as (w & m & Hw). rewrite Hw in He. destruct v'; discriminate He.
  - rewrite !params_rest in He. inversion Hr as [|? ? H1 H2]; subst. cbn [forallb] in K, K'. apply andb_prop in K, K'. destruct K as [G1 G2], K' as [G1' G2'].
    injection He as He. apply H1 in He; try assumption; try apply rest_stop. destruct He as [-> He].
    destruct (rest_read l v l' v' Y Y') as (-> & -> & ->); auto.
Qed.
Lemma post_fun p g ps c : postT (CPtrFun p g ps c) = P (ch ")") :: paramsT (map typeT (plist ps)) (g_variadic g) ++ tailT g ++ postT c.
Proof. destruct ps as [l|]; reflexivity. Qed.
Lemma good_fun p g ps c : good (CPtrFun p g ps c) = good_ptr p && good c && good_params ps.
Proof. destruct ps as [l|]; reflexivity. Qed.
Lemma snoc_eq {A} (l l' : list A) x x' : l ++ [x] = l' ++ [x'] -> l = l' /\ x = x'.
Proof. apply app_inj_tail. Qed.
Lemma post_all c : post_reads c.
Proof.
  assert (Hv : post_reads (CBase (BPrim Void) [])).
  { intros [b' qs'|p' c'|p' d' c'|p' g' ps' c'] X X' _ _ Hs Hb _ _ He; cbn [sk] in Hs; try (symmetry in Hs; apply app_eq_nil in Hs; destruct Hs as [_ Hs]; discriminate Hs).
    cbn in Hb. injection Hb as <- <-. auto. }
  induction c as [b qs|p c IH|p d c IH|p g ps c IHp IH] using cty_ind'; intros [b' qs'|p' c'|p' d' c'|p' g' ps' c'] X X' G G' Hs Hb HX HX' He;
    cbn [sk] in Hs; try (apply app_eq_nil in Hs; destruct Hs as [_ Hs]; discriminate Hs);
    try (symmetry in Hs; apply app_eq_nil in Hs; destruct Hs as [_ Hs]; discriminate Hs);
    try (apply snoc_eq in Hs; destruct Hs as [Hs Hi]; try discriminate Hi).
  - cbn in Hb. injection Hb as <- <-. auto.
  - injection Hi as <-. cbn [bs] in Hb. cbn [postT] in He. cbn [good] in G, G'.
    apply andb_prop in G, G'. destruct G as [G _], G' as [G' _]. apply andb_prop in G, G'. destruct G as [_ G], G' as [_ G'].
    destruct (IH c' X X') as [-> ->]; auto.
  - injection Hi as <-. cbn [bs] in Hb. cbn [postT app] in He. injection He as He. cbn [good] in G, G'.
    apply andb_prop in G, G'. destruct G as [_ G], G' as [_ G'].
    rewrite <- !app_assoc in He. apply dims_read in He; [|apply post_br; assumption|apply post_br; assumption]. destruct He as [-> He].
    destruct (IH c' X X') as [-> ->]; auto.
  - injection Hi as <- Hcc. cbn [bs] in Hb. rewrite !post_fun in He. apply (f_equal (@tl tk)) in He. cbn [app tl] in He. rewrite good_fun in G, G'.
    apply andb_prop in G, G'. destruct G as [G Gp], G' as [G' Gp']. apply andb_prop in G, G'. destruct G as [_ G], G' as [_ G'].
    rewrite <- !app_assoc in He.
    apply params_read in He; try assumption.
    + destruct He as (-> & Hvar & He). apply tail_read in He; try assumption; try (apply post_stop; assumption). destruct He as [-> He].
      destruct (IH c' X X') as [-> ->]; auto.
    + destruct ps as [l|]; cbn [plist].
      * eapply Forall_impl; [|exact IHp]. intros [c0 d0] Hc. apply type_of_post. exact Hc.
      * constructor; [|constructor]. apply type_of_post. exact Hv.
Qed.
Theorem type_read : forall x x', good_cxx x = true -> good_cxx x' = true -> typeT x = typeT x' -> x = x'.
Proof.
  intros [c d] x' G G' He. destruct (type_of_post c d (post_all c) x' [] []) as [H _]; try assumption; try exact I. rewrite !app_nil_r. exact He.
Qed.

(** ** Declarations *)
(** What a declaration says: a variable with the access of a static member, or a function with its
    class, the adjustment of [this] a thunk makes, and its return type if there is one. *)
Inductive dcl :=
| DObj (a : option access) (name : list str) (x : cxx)
| DFn (k : fn_class) (adj : adjustment) (name : list str) (g : sig) (ps : option (list cxx)) (r : option cty).
Definition good_dcl (d : dcl) : bool :=
  match d with
  | DObj _ n x => cxx_name n && good_cxx x
  | DFn _ j n _ ps r =>
    cxx_name n && good_params ps && match r with Some c => good c | None => true end && match j with VirtualCall _ => false | _ => true end
  end.
(** The mangled text [s] encodes the declaration. *)
Inductive declares : str -> dcl -> Prop :=
| dc_variable a cs x t y : Forall ident (x :: cs) -> type_ok t -> is_fun t = false -> meaning t = Some y ->
    declares (mangle_variable a cs x t) (DObj a (rev cs ++ [x]) y)
| dc_function externc ct k a this cs x q cc rq r ps v ne ps' r' :
    class_code externc ct k a this -> Forall ident (x :: cs) -> type_ok (TFun q (Some cc) rq r ps v ne) -> (this = false -> q = Q_None /\ rq = None) ->
    match ps with None => Some None | Some l => option_map Some (all_some (map meaning l)) end = Some ps' ->
    match r with None => Some None | Some r => match meaning r with Some (c, None) => Some (Some c) | _ => None end end = Some r' ->
    declares (mangle_function externc ct this cs x (TFun q (Some cc) rq r ps v ne)) (DFn k a (rev cs ++ [x]) (sig_of q cc rq v ne) ps' r').

Definition accT (a : option access) : list tk :=
  match a with
  | Some Private => [W (L "private"); P (ch ":")] | Some Protected => [W (L "protected"); P (ch ":")]
  | Some Public => [W (L "public"); P (ch ":")] | None => []
  end.
Definition prefT (th : bool) (a : option access) (s v e : bool) : list tk :=
  (if th then [P (ch "["); W (L "thunk"); P (ch "]"); P (ch ":")] else []) ++ accT a ++
  (if s then [W (L "static")] else []) ++ (if v then [W (L "virtual")] else []) ++
  (if e then [W (L "extern"); P 34%N; W (L "C"); P 34%N] else []).
Definition zT (z : Z) : list tk := match z with Zneg p => [P (ch "-"); W (dec_N (Npos p))] | _ => [W (dec_N (Z.to_N z))] end.
Definition adjT (a : adjustment) : list tk :=
  match a with
  | Adjustor n => [P (ch "`"); W (L "adjustor"); P (ch "{")] ++ zT (Z.of_N n) ++ [P (ch "}"); P (ch "'")]
  | Vtordisp v n => [P (ch "`"); W (L "vtordisp"); P (ch "{")] ++ zT v ++ [P (ch ",")] ++ zT (Z.of_N n) ++ [P (ch "}"); P (ch "'")]
  | Vtordispex a b v n =>
    [P (ch "`"); W (L "vtordispex"); P (ch "{")] ++ zT a ++ [P (ch ",")] ++ zT b ++ [P (ch ",")] ++ zT v ++ [P (ch ",")] ++ zT (Z.of_N n) ++ [P (ch "}"); P (ch "'")]
  | _ => []
  end.
Definition is_some {A} (a : option A) : bool := match a with Some _ => true | None => false end.
Definition fnT (j : adjustment) (name : list str) (g : sig) (ps : option (list cxx)) (r : option cty) : list tk :=
  match r with Some c => preT c | None => [] end ++ ccT (g_cc g) ++ qnT name ++ adjT j ++
  paramsT (map typeT (plist ps)) (g_variadic g) ++ tailT g ++ match r with Some c => postT c | None => [] end.
Definition objT (name : list str) (x : cxx) : list tk := preT (fst x) ++ qnT name ++ arrT (snd x) ++ postT (fst x).
Definition declT (d : dcl) : list tk :=
  match d with
  | DObj a n x => prefT false a (is_some a) false false ++ objT n x
  | DFn k j n g ps r => prefT (is_thunk j) (f_access k) (f_static k) (f_virtual k) (f_externc k) ++ fnT j n g ps r
  end.

Section DeclText.
  Variable E : env.
  Hypothesis H0 : e_flags E = 0%N.
  Lemma tok_prefix th a s v e X :
    tok (opt th (L "[thunk]: ") ++ show_access E a ++ show_member_type E s v e ++ X) = prefT th a s v e ++ tok X.
  Proof.
    unfold show_access, show_member_type. rewrite (fl6 E H0), (fl8 E H0), (fl9 E H0). cbn [negb andb].
    rewrite tok_l by (destruct th; reflexivity). rewrite tok_l by (destruct a as [[]|]; reflexivity).
    rewrite tok_l by (destruct s, v, e; reflexivity). unfold prefT. rewrite !app_assoc. f_equal. rewrite <- !app_assoc.
    f_equal; [destruct th; reflexivity|]. f_equal; [destruct a as [[]|]; reflexivity|]. destruct s, v, e; reflexivity.
  Qed.
  Lemma dec_word n : tok (dec_N n) = [W (dec_N n)] /\ dec_N n <> [].
  Proof.
    destruct (dec_N_correct n) as (D1 & _ & D3 & D4).
    assert (Hn : dec_N n <> []).
    { destruct (N.eqb_spec n 0) as [Hz|Hz]; [rewrite (D3 Hz); discriminate|]. specialize (D4 Hz). destruct (dec_N n); [destruct D4|discriminate]. }
    split; [|exact Hn]. apply tok_word; [|exact Hn]. apply forallb_forall. rewrite Forall_forall in D1. intros c Hc.
    unfold word_char, is_ascii_alnum. rewrite (D1 c Hc). reflexivity.
  Qed.
  Lemma tok_dec_Z z : tok (dec_Z z) = zT z.
  Proof.
    destruct z as [|p|p]; cbn [dec_Z zT]; try apply dec_word.
    change (ch "-" :: dec_N (N.pos p)) with (L "-" ++ dec_N (N.pos p)). rewrite tok_l by reflexivity. rewrite (proj1 (dec_word _)). reflexivity.
  Qed.
  Lemma dec_of_N n : dec_N n = dec_Z (Z.of_N n).
  Proof. destruct n; reflexivity. Qed.
  Lemma tok_adj a : tok (adjustment_text a) = adjT a /\ starts_wc (adjustment_text a) = false /\ ends_wc (adjustment_text a) = false.
  Proof.
    assert (Hz : forall z X, starts_wc X = false -> tok (dec_Z z ++ X) = zT z ++ tok X).
    { intros z X HX. rewrite tok_r, tok_dec_Z by exact HX. reflexivity. }
    destruct a as [|n|v n|p b v n|cc]; cbn [adjustment_text adjT]; rewrite ?dec_of_N; (split; [|split; [reflexivity|try reflexivity]]); try reflexivity.
    - rewrite tok_l by reflexivity. rewrite Hz by reflexivity. reflexivity.
    - rewrite !app_assoc, ends_app by discriminate. reflexivity.
    - rewrite tok_l by reflexivity. rewrite Hz by reflexivity. rewrite tok_l by reflexivity. rewrite Hz by reflexivity. reflexivity.
    - rewrite !app_assoc, ends_app by discriminate. reflexivity.
    - rewrite tok_l by reflexivity. rewrite Hz by reflexivity. rewrite tok_l by reflexivity. rewrite Hz by reflexivity.
      rewrite tok_l by reflexivity. rewrite Hz by reflexivity. rewrite tok_l by reflexivity. rewrite Hz by reflexivity. reflexivity.
    - rewrite !app_assoc, ends_app by discriminate. reflexivity.
  Qed.
  Lemma tok_variable a n t x : meaning t = Some x -> cxx_name n = true -> good_cxx x = true ->
    tok (show_variable E a t (qualified n)) = declT (DObj a n x).
  Proof.
    intros Hm Hn Hg. destruct (reads_all E H0 t) as [Hr _]. destruct (Hr x Hm Hg) as (R1 & R2 & R3 & R4).
    destruct (name_facts n Hn) as [N1 N2]. destruct (tok_name n N1 N2) as (T1 & _ & _). destruct (tidy_spec E _ R2) as [S1 S2].
    unfold show_variable. rewrite (fl6 E H0), (fl10 E H0). cbn [negb andb].
    pose proof (tok_prefix false a (is_some a) false false (sp E (pre E t) ++ qualified n ++ post E t)) as Hp. cbn [opt app] in Hp.
    etransitivity; [exact Hp|]. cbn [declT]. f_equal. rewrite tok_l, S1, R1 by exact S2. unfold objT. f_equal. rewrite tok_r, T1, R3 by exact R4. reflexivity.
  Qed.
  Lemma tok_function k j n q cc rq r ps v ne ps' r' :
    match ps with None => Some None | Some l => option_map Some (all_some (map meaning l)) end = Some ps' ->
    match r with None => Some None | Some r => match meaning r with Some (c, None) => Some (Some c) | _ => None end end = Some r' ->
    good_dcl (DFn k j n (sig_of q cc rq v ne) ps' r') = true ->
    tok (show_function E k j (Some (TFun q (Some cc) rq r ps v ne)) (qualified n)) = declT (DFn k j n (sig_of q cc rq v ne) ps' r').
  Proof.
    intros Hps Hr Hg. cbn [good_dcl] in Hg. apply andb_prop in Hg. destruct Hg as [Hg Hj]. apply andb_prop in Hg. destruct Hg as [Hg Gr].
    apply andb_prop in Hg. destruct Hg as [Hn Gp].
    destruct (name_facts n Hn) as [N1 N2]. destruct (tok_name n N1 N2) as (T1 & T2 & T3).
    set (t := TFun q (Some cc) rq r ps v ne).
    assert (Hpre : pre E t = match r with Some r => pre E r ++ L " " | None => [] end ++ cc_text E cc).
    { unfold t. cbn [pre]. unfold show_cc. rewrite (fl2 E H0), (fl3 E H0), (fl5 E H0), (fl6 E H0). destruct r; reflexivity. }
    assert (Hpost : post E t = params_text (match ps with Some l => Some (map (fun t => pre E t ++ post E t) l) | None => None end) v ++
      fn_tail E q ne rq ++ match r with Some r => post E r | None => [] end).
    { unfold t. cbn [post]. rewrite (fl5 E H0), (fl6 E H0). destruct r; reflexivity. }
    assert (Hcc : tok (cc_text E cc) = ccT cc /\ tidy E (cc_text E cc) /\ cc_text E cc <> []).
    { unfold cc_text, kw. rewrite (fl1 E H0). destruct cc; (split; [vm_compute; reflexivity|split; [|discriminate]]);
        intros Hx; try reflexivity; vm_compute in Hx; discriminate Hx. }
    destruct Hcc as (C1 & C2 & C3).
    assert (HR : tok (pre E t) = match r' with Some c => preT c | None => [] end ++ ccT cc /\
      tok (match r with Some r => post E r | None => [] end) = match r' with Some c => postT c | None => [] end /\
      starts_wc (match r with Some r => post E r | None => [] end) = false).
    { rewrite Hpre. destruct r as [r|].
      - destruct (meaning r) as [[c [d|]]|] eqn:Hm; try discriminate. injection Hr as <-. destruct (reads_all E H0 r) as [HR _].
        destruct (HR (c, None) Hm) as (R1 & R2 & R3 & R4); [unfold good_cxx; cbn [fst snd]; rewrite Gr; reflexivity|]. cbn [fst snd arrT app] in *.
        rewrite <- app_assoc. rewrite tok_r, tok_l by reflexivity. rewrite R1, C1, R3. auto.
      - injection Hr as <-. cbn [app]. rewrite C1. auto. }
    destruct HR as (R1 & R2 & R3). destruct (tok_tail E H0 q ne rq cc v) as [L1 L2]. destruct (tok_adj j) as (J1 & J2 & J3).
    assert (HP : tok (params_text (match ps with Some l => Some (map (fun t => pre E t ++ post E t) l) | None => None end) v) = paramsT (map typeT (plist ps')) v).
    { destruct ps as [l|].
      - destruct (all_some (map meaning l)) as [ys|] eqn:Hy; [|discriminate]. cbn [option_map] in Hps. injection Hps as <-.
        destruct (all_some_reads E l ys) as [I1 I2]; [|exact Hy|apply (plist_good (Some ys)); exact Gp|rewrite tok_params by exact I2; rewrite I1; reflexivity].
        apply Forall_forall. intros y _. apply reads_all. exact H0.
      - injection Hps as <-. transitivity (tok (params_text (Some [L "void"]) v)); [reflexivity|]. rewrite tok_params; [reflexivity|].
        constructor; [|constructor]. apply ce_one. discriminate. }
    assert (HQ : tok (adjustment_text j ++ post E t) = adjT j ++ paramsT (map typeT (plist ps')) v ++ tailT (sig_of q cc rq v ne) ++
      match r' with Some c => postT c | None => [] end /\ starts_wc (adjustment_text j ++ post E t) = false).
    { split.
      - rewrite tok_l, J1 by exact J3. f_equal. rewrite Hpost.
        rewrite tok_r by (destruct (fn_tail E q ne rq) eqn:Hf; [exact R3|exact L2]). rewrite HP. f_equal. rewrite (tok_r (fn_tail E q ne rq)), L1 by exact R3. f_equal. exact R2.
      - destruct (adjustment_text j); [rewrite Hpost; reflexivity|exact J2]. }
    destruct HQ as [Q1 Q2].
    unfold show_function. fold t. rewrite (fl6 E H0). cbn [negb]. rewrite andb_true_r.
    match goal with |- tok (sp E ?x ++ _) = _ => assert (Htid : tidy E x) end.
    { do 3 (apply tidy_app; [intros Hz; rewrite Hpre in Hz; repeat (apply app_eq_nil in Hz; destruct Hz as [? Hz]); contradiction|]).
      rewrite Hpre. apply tidy_app; assumption. }
    destruct (tidy_spec E _ Htid) as [S1 S2]. rewrite tok_l, S1 by exact S2. rewrite tok_prefix. cbn [declT]. rewrite <- app_assoc. f_equal.
    rewrite tok_r, T1, R1, Q1 by exact Q2. unfold fnT. cbn [sig_of g_cc g_variadic]. rewrite <- !app_assoc. reflexivity.
  Qed.
End DeclText.

(** Reading a declaration back. *)
Definition prefix_words : list str := map L ["public"; "protected"; "private"; "static"; "virtual"; "extern"]%string.
Definition fresh (Y : list tk) : Prop := exists w l, Y = W w :: l /\ ~ In w prefix_words.
Lemma not_prefix w : existsb (str_eqb w) prefix_words = false -> ~ In w prefix_words.
Proof. intros H Hi. apply seen_iff in Hi. congruence. Qed.
Lemma prefix_kw w : ~ In w keywords -> ~ In w prefix_words.
Proof.
  intros H Hi. apply H. apply in_keywords. cbn [prefix_words map In] in Hi. repeat (destruct Hi as [<- |Hi]; [vm_compute; reflexivity|]). destruct Hi.
Qed.
Lemma pref_read th a s v e th' a' s' v' e' Y Y' : fresh Y -> fresh Y' -> prefT th a s v e ++ Y = prefT th' a' s' v' e' ++ Y' ->
  th = th' /\ a = a' /\ s = s' /\ v = v' /\ e = e' /\ Y = Y'.
Proof.
  intros HY HY' He. unfold prefT in He. rewrite <- !app_assoc in He.
  assert (Hf : forall Z x, fresh Z -> existsb (str_eqb x) prefix_words = true -> ~ hd_is (W x) Z).
  { intros Z x (w & l & -> & Hw) Hx H. cbn in H. injection H as ->. apply Hw, seen_iff, Hx. }
  assert (Hp : forall Z c, fresh Z -> ~ hd_is (P c) Z) by (intros Z c (w & l & -> & Hw); discriminate).
  assert (Ho : forall (b : bool) k m (Z : list tk) x, x <> k -> ~ hd_is x Z -> ~ hd_is x ((if b then k :: m else []) ++ Z)).
  { intros [] k m Z x Hne HZ; [|exact HZ]. cbn. intros H. congruence. }
  assert (Ha : forall a (Z : list tk) x, ~ hd_is x (accT a) -> ~ hd_is x Z -> ~ hd_is x (accT a ++ Z)).
  { intros [[]|] Z x H1 H2; cbn in *; assumption. }
  assert (Hl : forall (b b' : bool) k m Z Z', ~ hd_is k Z -> ~ hd_is k Z' -> (if b then k :: m else []) ++ Z = (if b' then k :: m else []) ++ Z' -> b = b' /\ Z = Z').
  { intros [] [] k m Z Z' H1 H2 H3; cbn [app] in H3; [injection H3 as H3; apply app_inv_head in H3; auto|exfalso|exfalso|auto].
    - apply H2. rewrite <- H3. reflexivity.
    - apply H1. rewrite H3. reflexivity. }
  apply Hl in He; [|apply Ha; [destruct a as [[]|]; cbn; auto; discriminate|repeat (apply Ho; [discriminate|]); apply Hp; assumption]
                   |apply Ha; [destruct a' as [[]|]; cbn; auto; discriminate|repeat (apply Ho; [discriminate|]); apply Hp; assumption]].
  destruct He as [-> He].
  assert (Hacc : forall Z Z', (forall x, In x [L "public"; L "protected"; L "private"] -> ~ hd_is (W x) Z /\ ~ hd_is (W x) Z') -> accT a ++ Z = accT a' ++ Z' -> a = a' /\ Z = Z').
  { intros Z Z' HZ Hz. destruct (HZ (L "public")) as [P1 P2]; [cbn; auto|]. destruct (HZ (L "protected")) as [P3 P4]; [cbn; auto|]. destruct (HZ (L "private")) as [P5 P6]; [cbn; auto|].
    destruct a as [[]|], a' as [[]|]; cbn [accT app] in Hz; try discriminate Hz; try (injection Hz as Hz; auto; fail); try (split; [reflexivity|exact Hz]); exfalso;
      first [apply P2; rewrite <- Hz; reflexivity|apply P4; rewrite <- Hz; reflexivity|apply P6; rewrite <- Hz; reflexivity
            |apply P1; rewrite Hz; reflexivity|apply P3; rewrite Hz; reflexivity|apply P5; rewrite Hz; reflexivity]. }
  apply Hacc in He.
  2: { intros x Hx. assert (Hin : existsb (str_eqb x) prefix_words = true) by (destruct Hx as [<- |[<- |[<- |[]]]]; reflexivity).
       split; (destruct Hx as [<- |[<- |[<- |[]]]]; repeat (apply Ho; [discriminate|]); apply Hf; assumption). }
  destruct He as [-> He].
  apply Hl in He; [|repeat (apply Ho; [discriminate|]); apply Hf; [assumption|reflexivity]..]. destruct He as [-> He].
  apply Hl in He; [|repeat (apply Ho; [discriminate|]); apply Hf; [assumption|reflexivity]..]. destruct He as [-> He].
  apply Hl in He; [|apply Hf; [assumption|reflexivity]..]. destruct He as [-> He]. auto 7.
Qed.
Lemma pre_fresh c Y : good c = true -> exists w l, preT c ++ Y = W w :: l /\ ~ In w prefix_words /\ (forall cc, ~ hd_is (W w) (ccT cc)).
Proof.
  intros G. destruct (sk_facts c G) as (_ & _ & _ & Hb). rewrite pre_sk, <- !app_assoc. destruct (fst (bs c)) as [k|k n|x]; cbn [baseT good_base] in *.
  - destruct k; vm_compute; eexists _, _; (split; [reflexivity|]); split; try (intros [] H; discriminate H); intros H; repeat (destruct H as [H|H]; [discriminate H|]); exact H.
  - cbn [app]. eexists _, _. split; [reflexivity|]. split; [apply not_prefix; destruct k; reflexivity|]. intros cc. destruct cc, k; discriminate.
  - cbn [app]. eexists _, _. split; [reflexivity|]. unfold type_name in Hb. apply andb_prop in Hb. destruct Hb as [Hb _]. apply name_facts in Hb.
    destruct Hb as [_ Hb]. inversion Hb as [|? ? Hx _]; subst. destruct (word_facts x Hx) as (_ & _ & _ & Hk). split; [apply prefix_kw; exact Hk|].
    intros cc H. destruct (cc_start cc) as (w & m & Hw & Hin). rewrite Hw in H. cbn in H. injection H as ->. contradiction.
Qed.
Lemma cc_fresh cc Y : fresh (ccT cc ++ Y) /\ halt (ccT cc ++ Y).
Proof.
  split.
  - destruct cc; vm_compute; eexists _, _; (split; [reflexivity|]); intros H; repeat (destruct H as [H|H]; [discriminate H|]); exact H.
  - split; [|split; [split; [|split]|]].
    + intros i Z Hg He. pose proof (item_starts i Z Hg) as Hi. rewrite <- He in Hi.
      assert (Hkw : ~ hd_is (W (L "__unaligned")) (ccT cc ++ Z)) by (destruct cc; discriminate).
      destruct (cc_start cc) as (w & l & Hw & Hin). rewrite Hw in *. cbn [app item_start hd_is] in *.
      destruct Hi as [Hi|[Hi|[Hi|[Hi|Hi]]]]; try discriminate Hi; [auto|]. revert Hi. apply kw_not_name, Hin.
    + intros q. destruct cc, q; discriminate.
    + destruct cc; discriminate.
    + destruct cc; discriminate.
    + destruct cc; discriminate.
Qed.
Lemma name_halt n Z : cxx_name n = true -> ~ hd_is (P (ch ":")) Z -> halt (qnT n ++ Z) /\ fresh (qnT n ++ Z).
Proof.
  intros Hn HZ. destruct (name_hd n Hn) as (Hne & x & l & Hx & Hl).
  assert (Hkw : forall w, In w keywords -> ~ hd_is (W w) (qnT n ++ Z)).
  { intros w Hw. rewrite Hl. cbn. intros H. injection H as ->. contradiction. }
  split; [|exists x, (l ++ Z); rewrite Hl; split; [reflexivity|apply prefix_kw; exact Hx]].
  split; [|split; [split; [|split]|]].
  - intros i Y Hg He. rewrite item_split in He. destruct i as [[u c a qs] o]. unfold tailp in He. cbn [fst snd p_un p_cls p_aff p_qs] in *.
    destruct u.
    + apply (Hkw (L "__unaligned")); [apply in_keywords; vm_compute; reflexivity|]. rewrite He. reflexivity.
    + cbn [app] in He. destruct o; cbn [openT app] in He; try (rewrite Hl in He; discriminate He). destruct c as [m|].
      * cbn in Hg. destruct (name_facts m Hg) as [Hm _]. rewrite <- !app_assoc in He.
        apply qn_read in He; try assumption.
        -- destruct He as [_ He]. apply HZ. rewrite He. reflexivity.
        -- destruct Z as [|[w|c] [|[w2|c2] [|[w3|c3] Z]]]; try exact I. intros [-> _]. apply HZ. reflexivity.
        -- destruct a; exact I.
      * rewrite Hl in He. destruct a; discriminate He.
  - intros q. destruct (qT_kw q) as (w & Hw & Hin & _). rewrite Hw. apply Hkw, Hin.
  - apply Hkw, in_keywords. vm_compute. reflexivity.
  - rewrite Hl. discriminate.
  - rewrite Hl. discriminate.
Qed.
Lemma dec_inj n n' : dec_N n = dec_N n' -> n = n'.
Proof. intros H. rewrite <- (proj1 (proj2 (dec_N_correct n))), <- (proj1 (proj2 (dec_N_correct n'))), H. reflexivity. Qed.
Lemma z_read z z' Y Y' : zT z ++ Y = zT z' ++ Y' -> z = z' /\ Y = Y'.
Proof.
  intros He. destruct z as [|p|p], z' as [|p'|p']; cbn [zT app] in He; try discriminate He; [injection He as Hy; auto| | | |];
    injection He as Hd Hy; apply dec_inj in Hd; (split; [|exact Hy]); cbn in Hd; first [discriminate Hd|congruence].
Qed.
Definition typed_adj (a : adjustment) : bool := match a with VirtualCall _ => false | _ => true end.
Lemma adj_read a a' l v l' v' Y Y' : typed_adj a = true -> typed_adj a' = true -> adjT a ++ paramsT l v ++ Y = adjT a' ++ paramsT l' v' ++ Y' ->
  a = a' /\ paramsT l v ++ Y = paramsT l' v' ++ Y'.
Proof.
  intros H H' He.
  assert (Hn : forall n n', Z.of_N n = Z.of_N n' -> n = n') by (intros; lia).
  destruct a as [|n|x n|p b x n|cc], a' as [|n'|x' n'|p' b' x' n'|cc']; try discriminate H; try discriminate H'; cbn [adjT] in He; rewrite <- ?app_assoc in He; cbn [app] in He; try discriminate He; [auto| | |].
  - apply (f_equal (@tl tk)) in He. cbn [tl] in He. apply (f_equal (@tl tk)) in He. cbn [tl] in He. apply (f_equal (@tl tk)) in He. cbn [tl] in He.
    apply z_read in He. destruct He as [Hz He]. apply Hn in Hz. subst. do 2 (apply (f_equal (@tl tk)) in He; cbn [tl] in He). auto.
  - do 3 (apply (f_equal (@tl tk)) in He; cbn [tl] in He).
    apply z_read in He. destruct He as [-> He]. apply (f_equal (@tl tk)) in He. cbn [tl] in He.
    apply z_read in He. destruct He as [Hz He]. apply Hn in Hz. subst. do 2 (apply (f_equal (@tl tk)) in He; cbn [tl] in He). auto.
  - do 3 (apply (f_equal (@tl tk)) in He; cbn [tl] in He).
    do 3 (apply z_read in He; destruct He as [-> He]; apply (f_equal (@tl tk)) in He; cbn [tl] in He).
    apply z_read in He. destruct He as [Hz He]. apply Hn in Hz. subst. do 2 (apply (f_equal (@tl tk)) in He; cbn [tl] in He). auto.
Qed.
Lemma qn_stop_hd Z : ~ hd_is (P (ch ":")) Z -> qn_stop Z.
Proof. intros HZ. destruct Z as [|[w|c] [|[w2|c2] [|[w3|c3] Z]]]; try exact I. intros [-> _]. apply HZ. reflexivity. Qed.
Lemma obj_rest d c : ~ hd_is (P (ch ":")) (arrT d ++ postT c).
Proof. pose proof (arr_post_halt d c [] I) as H. rewrite app_nil_r in H. apply H. Qed.
Lemma fn_rest j l v Y : ~ hd_is (P (ch ":")) (adjT j ++ paramsT l v ++ Y).
Proof. destruct j; discriminate. Qed.
Lemma all_types_read l : Forall type_reads l.
Proof. apply Forall_forall. intros [c d] _. apply type_of_post, post_all. Qed.
Theorem decl_read : forall d d', good_dcl d = true -> good_dcl d' = true -> declT d = declT d' -> d = d'.
Proof.
  assert (Hof : forall n x, cxx_name n = true -> good_cxx x = true -> fresh (objT n x)).
  { intros n x Hn Hg. unfold good_cxx in Hg. apply andb_prop in Hg. destruct Hg as [Hg _]. unfold objT.
    destruct (pre_fresh (fst x) (qnT n ++ arrT (snd x) ++ postT (fst x)) Hg) as (w & l & Hw & Hp & _). exists w, l. auto. }
  assert (Hff : forall j n g ps r, match r with Some c => good c | None => true end = true -> fresh (fnT j n g ps r)).
  { intros j n g ps [c|] Hg; unfold fnT; [|apply cc_fresh]. 
    match goal with |- fresh (preT c ++ ?Y) => destruct (pre_fresh c Y Hg) as (w & l & Hw & Hp & _) end. exists w, l. auto. }
  assert (Hcn : forall cc n (Y Z : list tk), cxx_name n = true -> ccT cc ++ Y <> qnT n ++ Z).
  { intros cc n Y Z Hn He. destruct (cc_start cc) as (w & m & Hw & Hin). destruct (name_hd n Hn) as (_ & x & l & Hx & Hl). rewrite Hw, Hl in He. cbn [app] in He.
    injection He as -> _. contradiction. }
  assert (Hcp : forall cc c (Y Z : list tk), good c = true -> ccT cc ++ Y <> preT c ++ Z).
  { intros cc c Y Z Hg He. destruct (pre_fresh c Z Hg) as (w & l & Hw & _ & Hc). rewrite Hw in He. apply (Hc cc). destruct (cc_start cc) as (x & m & Hx & _).
    rewrite Hx in *. cbn [app] in He. injection He as -> _. reflexivity. }
  assert (Hmix : forall n x j n' g ps r, cxx_name n = true -> good_cxx x = true -> match r with Some c => good c | None => true end = true -> objT n x <> fnT j n' g ps r).
  { intros n x j n' g ps r Hn Hg Hr He. unfold good_cxx in Hg. apply andb_prop in Hg. destruct Hg as [Hg _]. unfold objT, fnT in He. destruct r as [c|].
    - apply pre_read in He; try assumption.
      + destruct He as (_ & _ & He). symmetry in He. revert He. apply Hcn. exact Hn.
      + apply name_halt; [exact Hn|apply obj_rest].
      + apply cc_fresh.
    - cbn [app] in He. symmetry in He. revert He. apply Hcp. exact Hg. }
  assert (Hg3 : forall j n ps r, cxx_name n && good_params ps && match r with Some c => good c | None => true end && match j with VirtualCall _ => false | _ => true end = true ->
    cxx_name n = true /\ good_params ps = true /\ match r with Some c => good c | None => true end = true /\ typed_adj j = true).
  { intros j n ps r H. apply andb_prop in H. destruct H as [H H4]. apply andb_prop in H. destruct H as [H H3]. apply andb_prop in H. destruct H as [H1 H2]. auto. }
  intros [a n x|k j n g ps r] [a' n' x'|k' j' n' g' ps' r'] G G' He; cbn [good_dcl declT] in *.
  - apply andb_prop in G, G'. destruct G as [G1 G2], G' as [G1' G2'].
    apply pref_read in He; [|apply Hof; assumption|apply Hof; assumption]. destruct He as (_ & -> & _ & _ & _ & He).
    destruct x as [c d], x' as [c' d']. unfold objT in He. unfold good_cxx in G2, G2'. cbn [fst snd] in *. apply andb_prop in G2, G2'. destruct G2 as [G2 G3], G2' as [G2' G3'].
    apply pre_read in He; try assumption; try (apply name_halt; [assumption|apply obj_rest]). destruct He as (Hb & Hs & He).
    apply qn_read in He; try (apply name_facts; assumption); try (apply qn_stop_hd, obj_rest). destruct He as [-> He].
    pose proof (post_br c [] I) as B1. pose proof (post_br c' [] I) as B2. rewrite app_nil_r in B1, B2.
    apply arr_read in He; try assumption. destruct He as [-> He].
    destruct (post_all c c' [] []) as [-> _]; try assumption; try exact I; [rewrite !app_nil_r; exact He|reflexivity].
  - exfalso. apply andb_prop in G. destruct G as [G1 G2]. destruct (Hg3 _ _ _ _ G') as (K1 & K2 & K3 & K4).
    apply pref_read in He; [|apply Hof; assumption|apply Hff; assumption]. destruct He as (_ & _ & _ & _ & _ & He). revert He. apply Hmix; assumption.
  - exfalso. apply andb_prop in G'. destruct G' as [G1 G2]. destruct (Hg3 _ _ _ _ G) as (K1 & K2 & K3 & K4).
    apply pref_read in He; [|apply Hff; assumption|apply Hof; assumption]. destruct He as (_ & _ & _ & _ & _ & He). symmetry in He. revert He. apply Hmix; assumption.
  - destruct (Hg3 _ _ _ _ G) as (K1 & K2 & K3 & K4). destruct (Hg3 _ _ _ _ G') as (K1' & K2' & K3' & K4'). clear G G'.
    apply pref_read in He; [|apply Hff; assumption|apply Hff; assumption]. destruct He as (Hth & Ha & Hs & Hv & Hx & He).
    assert (k = k') as -> by (destruct k, k'; cbn in *; congruence). clear Hth Ha Hs Hv Hx. unfold fnT in He.
    assert (Hr : forall c c' Y Y', good c = true -> good c' = true -> halt Y -> halt Y' -> preT c ++ Y = preT c' ++ Y' -> (bs c = bs c' /\ sk c = sk c') /\ Y = Y').
    { intros c c' Y Y' H1 H2 H3 H4 H5. apply pre_read in H5; tauto. }
    assert (HR : match r, r' with Some c, Some c' => bs c = bs c' /\ sk c = sk c' | None, None => True | _, _ => False end /\
      ccT (g_cc g) ++ qnT n ++ adjT j ++ paramsT (map typeT (plist ps)) (g_variadic g) ++ tailT g ++ match r with Some c => postT c | None => [] end =
      ccT (g_cc g') ++ qnT n' ++ adjT j' ++ paramsT (map typeT (plist ps')) (g_variadic g') ++ tailT g' ++ match r' with Some c => postT c | None => [] end).
    { destruct r as [c|], r' as [c'|].
      - apply Hr; try assumption; apply cc_fresh.
      - exfalso. symmetry in He. cbn [app] in He. revert He. apply Hcp. exact K3.
      - exfalso. cbn [app] in He. revert He. apply Hcp. exact K3'.
      - auto. }
    clear He. destruct HR as [HR He]. apply cc_read in He. destruct He as [Hcc He].
    apply qn_read in He; try (apply name_facts; assumption); try (apply qn_stop_hd, fn_rest). destruct He as [-> He].
    apply adj_read in He; try assumption. destruct He as [-> He].
    apply params_read in He; try assumption; [|apply all_types_read]. destruct He as (-> & Hvar & He).
    assert (Hst : forall r, stop (match r with Some c => postT c | None => [] end)).
    { intros [c|]; [|exact I]. pose proof (post_stop c [] I) as H. rewrite app_nil_r in H. exact H. }
    apply tail_read in He; try assumption; try apply Hst. destruct He as [-> He].
    f_equal. destruct r as [c|], r' as [c'|]; try destruct HR; [|reflexivity]. f_equal.
    destruct (post_all c c' [] []) as [-> _]; try assumption; try exact I; [rewrite !app_nil_r; exact He|reflexivity].
Qed.

(** ** C40 *)
Lemma declares_text E s d : e_flags E = 0%N -> declares s d -> good_dcl d = true -> exists x, demangles_to E s x /\ tok x = declT d.
Proof.
  intros H0 Hd Hg. destruct Hd.
  - cbn [good_dcl] in Hg. apply andb_prop in Hg. destruct Hg as [G1 G2].
    eexists. split; [apply variable_round_trip; assumption|]. apply tok_variable; assumption.
  - eexists. split; [eapply function_round_trip; eassumption|]. apply tok_function; assumption.
Qed.
Definition tells (E : env) (s : str) (d : dcl) : Prop := exists x, demangles_to E s x /\ tok x = declT d.
Lemma tells_apart E s1 s2 r1 r2 out d1 d2 : rust_str (s1 ++ r1) -> rust_str (s2 ++ r2) -> tells E s1 d1 -> tells E s2 d2 ->
  good_dcl d1 = true -> good_dcl d2 = true -> demangle E (s1 ++ r1) = Ok out -> demangle E (s2 ++ r2) = Ok out -> d1 = d2.
Proof.
  intros R1 R2 D1 D2 G1 G2 E1 E2.
  assert (Ht : forall s r d, rust_str (s ++ r) -> tells E s d -> demangle E (s ++ r) = Ok out -> tok out = declT d).
  { intros s r d Hs (x & Hx & Ht) He. destruct (Hx r Hs) as [Ho|[_ Ho]]; rewrite Ho in He; [|discriminate He].
    unfold outcome in He. destruct (_ <? _)%N; [|discriminate He]. injection He as <-. exact Ht. }
  apply decl_read; [exact G1|exact G2|]. rewrite <- (Ht s1 r1 d1), <- (Ht s2 r2 d2); auto.
Qed.
Theorem text_tells_apart : forall (E : env) (s1 s2 out : str) (d1 d2 : dcl), e_flags E = 0%N -> rust_str s1 -> rust_str s2 ->
  declares s1 d1 -> declares s2 d2 -> good_dcl d1 = true -> good_dcl d2 = true ->
  demangle E s1 = Ok out -> demangle E s2 = Ok out -> d1 = d2.
Proof.
  intros E s1 s2 out d1 d2 H0 R1 R2 D1 D2 G1 G2 E1 E2.
  apply (tells_apart E s1 s2 [] [] out); rewrite ?app_nil_r; try assumption; apply declares_text; assumption.
Qed.
Print Assumptions text_tells_apart.
(** The same for every spelling the code accepts (C33), not only the compiler's, and whatever
    follows the symbol. *)
Inductive declared (E : env) : str -> dcl -> Prop :=
| de_variable n i G1 c ss G2 v a t G3 x y : let F := code_limits E in
    usym F empty_tab n i G1 -> chain F G1 c ss G2 -> variable F G2 v a t G3 -> id_text F i ss None x ->
    meaning t = Some y -> declared E (L "?" ++ n ++ c ++ v) (DObj a (ss ++ [x]) y)
| de_function n i G1 c ss G2 f k a q cc rq r ps v ne G3 x ps' r' : let F := code_limits E in
    usym F empty_tab n i G1 -> chain F G1 c ss G2 -> function F G2 f k a (Some (TFun q (Some cc) rq r ps v ne)) G3 -> id_text F i ss r x ->
    match ps with None => Some None | Some l => option_map Some (all_some (map meaning l)) end = Some ps' ->
    match r with None => Some None | Some r => match meaning r with Some (c, None) => Some (Some c) | _ => None end end = Some r' ->
    declared E (L "?" ++ n ++ c ++ f) (DFn k a (ss ++ [x]) (sig_of q cc rq v ne) ps' r').
Lemma declared_text E s d : e_flags E = 0%N -> declared E s d -> good_dcl d = true -> tells E s d.
Proof.
  intros H0 Hd Hg.
  assert (Hv : forall a t n, show_variable (code_limits E) a t n = show_variable E a t n) by reflexivity.
  destruct Hd.
  - cbn [good_dcl] in Hg. apply andb_prop in Hg. destruct Hg as [G1' G2'].
    eexists. split; [eapply symbol_demangles, sy_variable; eassumption|]. apply tok_variable; assumption.
  - eexists. split; [eapply symbol_demangles, sy_function; eassumption|]. apply tok_function; assumption.
Qed.
Theorem symbols_tell_apart : forall (E : env) (s1 s2 rest1 rest2 out : str) (d1 d2 : dcl), e_flags E = 0%N ->
  rust_str (s1 ++ rest1) -> rust_str (s2 ++ rest2) ->
  declared E s1 d1 -> declared E s2 d2 -> good_dcl d1 = true -> good_dcl d2 = true ->
  demangle E (s1 ++ rest1) = Ok out -> demangle E (s2 ++ rest2) = Ok out -> d1 = d2.
Proof.
  intros E s1 s2 r1 r2 out d1 d2 H0 R1 R2 D1 D2 G1 G2. apply tells_apart; try assumption; apply declared_text; assumption.
Qed.
Print Assumptions symbols_tell_apart.
(** The hypotheses are met: a static member and a virtual function. *)
Example sample_declares : exists d, declares (L "?x@C@ns@@2P6GPBDABUS@2@QCH0ZZA") d /\ good_dcl d = true.
Proof.
  destruct sample_ok as (H1 & H2 & H3 & H4 & _). rewrite <- H4. eexists. split; [apply dc_variable; [exact H3|exact H1|exact H2|vm_compute; reflexivity]|].
  vm_compute. reflexivity.
Qed.
Example sample_function_declares : exists d, declares (L "?f@C@@UGBEHP6GPBDABUS@ns@@QCH0ZZ2@_E") d /\ good_dcl d = true.
Proof.
  destruct sample_function_ok as (H1 & H2 & H3). cbv zeta in *. rewrite <- H3. eexists. split.
  - eapply dc_function; [exact H2|idents|exact H1|discriminate|vm_compute; reflexivity|vm_compute; reflexivity].
  - vm_compute. reflexivity.
Qed.
(** The text does not show everything the symbol encodes: here whether the pointer has 64 bits. *)
Example same_text : exists d, declares (L "?x@@3PAHA") d /\ declares (L "?x@@3PEAHEA") d /\ good_dcl d = true /\
  demangle (env_of 0) (L "?x@@3PAHA") = Ok (L "int *x") /\ demangle (env_of 0) (L "?x@@3PEAHEA") = Ok (L "int *x").
Proof.
  exists (DObj None [L "x"] (CPtr (Ptr false None APointer []) (CBase (BPrim Int) []), None)).
  split; [|split; [|repeat split; vm_compute; reflexivity]].
  - apply (dc_variable None [] (L "x") (TPtr Q_None APointer None (TPrim Q_None Int))); [idents|repeat split; auto|reflexivity|reflexivity].
  - apply (dc_variable None [] (L "x") (TPtr Q_Pointer64 APointer None (TPrim Q_None Int))); [idents|repeat split; auto|reflexivity|reflexivity].
Qed.
(** Why the name of a type must not end in an underscore, and why no pointer to a reference is
    considered: here the text does not tell the symbols apart. *)
Example underscore_merges :
  demangle (env_of 0) (L "?_x@@3VA_@@A") = Ok (L "class A__x") /\ demangle (env_of 0) (L "?x@@3VA__@@A") = Ok (L "class A__x").
Proof. split; vm_compute; reflexivity. Qed.
Example references_merge :
  demangle (env_of 0) (L "?x@@3AAAAHA") = Ok (L "int &&x") /\ demangle (env_of 0) (L "?x@@3$$QAHA") = Ok (L "int &&x").
Proof. split; vm_compute; reflexivity. Qed.
(** A spelling no compiler uses: the [const] of the target is given only behind the type. *)
Example declared_sample : forall E, exists d, declared E (L "?x@@3PAHB") d /\ declares (L "?x@@3PBHB") d /\ good_dcl d = true.
Proof.
  intros E. exists (DObj None [L "x"] (CPtr (Ptr false None APointer []) (CBase (BPrim Int) [Qconst]), None)). split; [|split; [|vm_compute; reflexivity]].
  - assert (Hx : ident (L "x")) by (assert (H : Forall ident [L "x"]) by idents; inversion H; assumption).
    assert (Hp : mtype (code_limits E) false (remember (L "x") empty_tab) (L "AH") (TPrim Q_None Int) (remember (L "x") empty_tab)).
    { pose proof (mt_intro (code_limits E) false false false (remember (L "x") empty_tab) (prim_code Int) (TPrim Q_None Int) (remember (L "x") empty_tab)) as H.
      apply H. apply bo_prim. }
    pose proof (bo_pointer (code_limits E) _ (L "P") Q_None APointer false false false _ _ _ (pk_pointer false false) Hp) as Hb.
    pose proof (va_pointer (code_limits E) _ (storage_letter None) None _ _ _ _ _ false false false false true false (storage_letter_ok None) Hb) as Hv.
    exact (de_variable E _ (IText (L "x")) _ _ [] _ _ _ _ _ (L "x") _ (us_base _ _ _ _ _ (ub_name empty_tab (L "x") Hx)) (ch_end _ _) Hv (it_text _ _ _ _) eq_refl).
  - apply (dc_variable None [] (L "x") (TPtr Q_None APointer None (TPrim Q_Const Int))); [idents|repeat split; auto|reflexivity|reflexivity].
Qed.
