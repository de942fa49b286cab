(** Specification: the C++ text of types, names and symbols, as plain string functions of the
    ten flags.  Nothing here mentions nodes, handles or buffers.  The texts of keywords are
    stated here again, not taken from the model of the code. *)
From Verif Require Import Syntax Output.

(** ** Strings *)
Fixpoint join (sep : str) (l : list str) : str :=
  match l with
  | [] => []
  | [x] => x
  | x :: l => x ++ sep ++ join sep l
  end.
Definition opt (b : bool) (x : str) : str := if b then x else [].
(** A string of Unicode scalar values. *)
Definition ustr (x : str) : Prop := Forall (fun c => scalar c = true) x.

(** ** Keywords *)
Definition prim_text (k : prim_kind) : str :=
  match k with
  | Void => L "void" | Bool_ => L "bool" | Char => L "char" | Schar => L "signed char"
  | Uchar => L "unsigned char" | Char8 => L "char8_t" | Char16 => L "char16_t" | Char32 => L "char32_t"
  | Short => L "short" | Ushort => L "unsigned short" | Int => L "int" | Uint => L "unsigned int"
  | Long => L "long" | Ulong => L "unsigned long" | Int64 => L "__int64" | Uint64 => L "unsigned __int64"
  | Wchar => L "wchar_t" | Float => L "float" | Double => L "double" | Ldouble => L "long double"
  | Nullptr => L "std::nullptr_t" | Auto => L "auto" | DecltypeAuto => L "decltype(auto)"
  end.
Definition tag_text (t : tag_kind) : str :=
  match t with TKClass => L "class" | TKStruct => L "struct" | TKUnion => L "union" | TKEnum => L "enum" end.
Definition pointer_text (a : affinity) : str :=
  match a with APointer => L "*" | AReference => L "&" | ARValueReference => L "&&" end.

(** ** Types
    Qualifiers are a bit set ([Q_Const] and so on).  A name is the list of its components,
    outermost first, each already spelled out. *)
Inductive ty :=
| TPrim (q : N) (k : prim_kind)
| TTag (q : N) (t : tag_kind) (name : list str)
| TPtr (q : N) (a : affinity) (cls : option (list str)) (pointee : ty)
| TArr (q : N) (dims : list N) (el : ty)
| TFun (q : N) (cc : option call_conv) (rq : option ref_qual) (ret : option ty)
       (params : option (list ty)) (variadic noexcept : bool)
| TCustom (q : N) (name : str).

Definition qualified (name : list str) : str := join (L "::") name.

Section Show.
  Variable E : env.

  (** A space is needed after a letter, a digit or ['>']. *)
  Definition ends_word (x : str) : bool :=
    match rev x with c :: _ => is_alphanumeric E c || (c =? ch ">")%N | [] => false end.
  Definition sp (x : str) : str := x ++ opt (ends_word x) (L " ").

  (** Microsoft keywords: with or without leading underscores. *)
  Definition kw (w : str) : str := opt (negb (no_leading_underscores E)) (L "__") ++ w.
  Definition cc_text (c : call_conv) : str :=
    match c with
    | Cdecl => kw (L "cdecl") | Pascal => kw (L "pascal") | Thiscall => kw (L "thiscall")
    | Stdcall => kw (L "stdcall") | Fastcall => kw (L "fastcall") | Clrcall => kw (L "clrcall")
    | Eabi => kw (L "eabi") | Vectorcall => kw (L "vectorcall")
    | Swift => L "__attribute__((__swiftcall__)) "
    | SwiftAsync => L "__attribute__((__swiftasynccall__)) "
    end.
  (** The calling convention is suppressed by two flags. *)
  Definition show_cc : bool := negb (no_calling_convention E) && negb (no_ms_keywords E).

  (** The qualifier words of a bit set, in order.  Under [NO_MS_KEYWORDS] the word
      [__restrict] is empty but keeps its separator. *)
  Definition qual_words (q : N) : list str :=
    (if contains q Q_Const then [L "const"] else []) ++
    (if contains q Q_Volatile then [L "volatile"] else []) ++
    (if contains q Q_Restrict then [opt (negb (no_ms_keywords E)) (kw (L "restrict"))] else []).
  Definition quals_after (q : N) : str := concat (map (fun w => L " " ++ w) (qual_words q)).
  Definition quals_alone (q : N) : str := join (L " ") (qual_words q).

  (** The part of a declaration in front of the declared name. *)
  Fixpoint pre (t : ty) : str :=
    match t with
    | TPrim q k => prim_text k ++ quals_after q
    | TTag q k n => opt (negb (no_tag_specifier E) && negb (name_only E)) (tag_text k ++ L " ") ++
                    qualified n ++ quals_after q
    | TPtr q a cls p =>
      sp (match p with
          | TFun _ _ _ (Some r) _ _ _ => opt (negb (no_return_type E)) (pre r ++ L " ")
          | TFun _ _ _ None _ _ _ => []
          | _ => pre p
          end) ++
      opt (negb (no_ms_keywords E) && contains q Q_Unaligned) (kw (L "unaligned") ++ L " ") ++
      match p with
      | TArr _ _ _ => L "("
      | TFun _ cc _ _ _ _ _ =>
        L "(" ++ match cc with Some c => opt show_cc (cc_text c ++ L " ") | None => [] end
      | _ => []
      end ++
      match cls with Some n => qualified n ++ L "::" | None => [] end ++
      pointer_text a ++ quals_alone q
    | TArr q _ el => pre el ++ quals_after q
    | TFun _ cc _ ret _ _ _ =>
      match ret with
      | Some r => opt (negb (no_return_type E) && negb (name_only E)) (pre r ++ L " ")
      | None => []
      end ++
      match cc with Some c => opt (show_cc && negb (name_only E)) (cc_text c) | None => [] end
    | TCustom _ x => x
    end.

  (** A bracketed parameter list. *)
  Definition params_text (ps : option (list str)) (variadic : bool) : str :=
    let body := match ps with Some l => join (L ", ") l | None => L "void" end in
    L "(" ++ body ++
    opt variadic (match rev (L "(" ++ body) with
                  | c :: _ => opt (negb (c =? ch "(")%N) (L ", ")
                  | [] => []
                  end ++ L "...") ++
    L ")".
  (** The qualifiers of [this], [noexcept] and the ref-qualifier. *)
  Definition fn_tail (q : N) (noexcept : bool) (rq : option ref_qual) : str :=
    let this := negb (no_this_type E) && negb (name_only E) in
    opt this (opt (contains q Q_Const) (L " const") ++ opt (contains q Q_Volatile) (L " volatile") ++
              opt (negb (no_ms_keywords E))
                (opt (contains q Q_Restrict) (L " " ++ kw (L "restrict")) ++
                 opt (contains q Q_Unaligned) (L " " ++ kw (L "unaligned")))) ++
    opt noexcept (L " noexcept") ++
    opt this (match rq with Some RQReference => L " &" | Some RQRValueReference => L " &&" | None => [] end).

  Definition dim_text (d : N) : str := if (d =? 0)%N then [] else dec_N d.

  (** The part behind the declared name. *)
  Fixpoint post (t : ty) : str :=
    match t with
    | TPrim _ _ | TTag _ _ _ | TCustom _ _ => []
    | TPtr _ _ _ p =>
      match p with
      | TArr _ _ _ => L ")" ++ post p
      | TFun q _ rq ret ps v ne =>
        L ")" ++
        params_text (match ps with Some l => Some (map (fun t => pre t ++ post t) l) | None => None end) v ++
        fn_tail q ne rq ++
        match ret with Some r => opt (negb (no_return_type E) && negb (name_only E)) (post r) | None => [] end
      | _ => post p
      end
    | TArr _ dims el => L "[" ++ join (L "][") (map dim_text dims) ++ L "]" ++ post el
    | TFun q _ rq ret ps v ne =>
      opt (negb (name_only E))
        (params_text (match ps with Some l => Some (map (fun t => pre t ++ post t) l) | None => None end) v) ++
      fn_tail q ne rq ++
      match ret with Some r => opt (negb (no_return_type E) && negb (name_only E)) (post r) | None => [] end
    end.

  Definition show (t : ty) : str := pre t ++ post t.
End Show.

(** Adding and replacing the qualifiers of a type. *)
Definition map_quals (f : N -> N) (t : ty) : ty :=
  match t with
  | TPrim q k => TPrim (f q) k
  | TTag q k n => TTag (f q) k n
  | TPtr q a c p => TPtr (f q) a c p
  | TArr q d e => TArr (f q) d e
  | TFun q cc rq r ps v ne => TFun (f q) cc rq r ps v ne
  | TCustom q x => TCustom (f q) x
  end.
Definition add_quals (q : N) : ty -> ty := map_quals (fun old => N.lor old q).
Definition replace_quals (q : N) : ty -> ty := map_quals (fun _ => q).

(** ** Symbols *)
Inductive access := Private | Protected | Public.
Definition access_text (a : access) : str :=
  match a with Private => L "private: " | Protected => L "protected: " | Public => L "public: " end.

(** How a thunk adjusts [this]. *)
Inductive adjustment :=
| NoAdjustment
| Adjustor (n : N)
| Vtordisp (v : Z) (n : N)
| Vtordispex (vbptr vboffset v : Z) (n : N)
| VirtualCall (cc : option call_conv).   (* a vcall thunk: no type, only a calling convention *)
Definition adjustment_text (a : adjustment) : str :=
  match a with
  | NoAdjustment => []
  | Adjustor n => L "`adjustor{" ++ dec_N n ++ L "}'"
  | Vtordisp v n => L "`vtordisp{" ++ dec_Z v ++ L ", " ++ dec_N n ++ L "}'"
  | Vtordispex a b v n =>
    L "`vtordispex{" ++ dec_Z a ++ L ", " ++ dec_Z b ++ L ", " ++ dec_Z v ++ L ", " ++ dec_N n ++ L "}'"
  | VirtualCall _ => []
  end.
Definition is_thunk (a : adjustment) : bool := match a with NoAdjustment => false | _ => true end.

(** A function's class: access ([None] for non-members), [static], [virtual], [extern "C"]. *)
Record fn_class := FnClass { f_access : option access; f_static : bool; f_virtual : bool; f_externc : bool }.

Section ShowSymbols.
  Variable E : env.
  Definition show_access (a : option access) : str :=
    opt (negb (no_access_specifier E) && negb (name_only E)) (match a with Some a => access_text a | None => [] end).
  Definition show_member_type (static virtual externc : bool) : str :=
    opt (negb (no_member_type E) && negb (name_only E))
      (opt static (L "static ") ++ opt virtual (L "virtual ") ++ opt externc (L "extern ""C"" ")).

  (** A variable; [a] is the access of a static member. *)
  Definition show_variable (a : option access) (t : ty) (name : str) : str :=
    show_access a ++ show_member_type (match a with Some _ => true | None => false end) false false ++
    (if negb (no_variable_type E) && negb (name_only E)
     then sp E (pre E t) ++ name ++ post E t else name).

  (** What stands in front of the name of a function without a type. *)
  Definition untyped_pre (a : adjustment) : str :=
    match a with
    | VirtualCall (Some c) => opt (show_cc E && negb (name_only E)) (cc_text E c)
    | _ => []
    end.
  (** A function; [sig] is its function type, [None] for a symbol without parameter list. *)
  Definition show_function (c : fn_class) (a : adjustment) (sig : option ty) (name : str) : str :=
    sp E (opt (is_thunk a && negb (name_only E)) (L "[thunk]: ") ++
          show_access (f_access c) ++ show_member_type (f_static c) (f_virtual c) (f_externc c) ++
          match sig with Some t => pre E t | None => untyped_pre a end) ++
    name ++ adjustment_text a ++
    match sig with Some t => post E t | None => [] end.
End ShowSymbols.

(** ** Special symbols *)
Section ShowSpecials.
  Variable E : env.
  Definition quals_before (q : N) : str :=
    quals_alone E q ++ opt (match quals_alone E q with [] => false | _ => true end) (L " ").
  (** A table of a class: its qualifiers, its name and, when given, the class it is for. *)
  Definition show_table (q : N) (name : str) (target : option (list str)) : str :=
    opt (negb (name_only E)) (quals_before q) ++ name ++
    match target with Some n => L "{for `" ++ qualified n ++ L "'}" | None => [] end.
  (** The guard of a local static; [i] is its scope index. *)
  Definition guard_text (thread : bool) (i : N) : str :=
    (if thread then L "`local static thread guard'" else L "`local static guard'") ++
    opt (0 <? i)%N (L "{" ++ dec_N i ++ L "}").
  Definition base_descriptor_text (nv : N) (vbptr : Z) (vbtable flags : N) : str :=
    L "`RTTI Base Class Descriptor at (" ++ dec_N nv ++ L ", " ++ dec_Z vbptr ++ L ", " ++
    dec_N vbtable ++ L ", " ++ dec_N flags ++ L ")'".
  Definition vcall_text (offset : N) : str :=
    L "`vcall'{" ++ dec_N offset ++ (if name_only E then L "}" else L ", {flat}}").
  (** Initializers and destructors of globals: [x] is a name, or the text of a variable. *)
  Definition dynamic_text (dtor variable : bool) (x : str) : str :=
    (if dtor then L "`dynamic atexit destructor for " else L "`dynamic initializer for ") ++
    (if variable then L "`" else L "'") ++ x ++ L "''".
  (** A type descriptor: a type in front of a marker. *)
  Definition show_type_name (t : ty) : str :=
    if name_only E then show E t else sp E (show E t) ++ L "`RTTI Type Descriptor Name'".
End ShowSpecials.
