(** The parser: every [demangle_*] function of /repo/src/demangler.rs. *)
From Verif Require Export Output.

(** ** State and monad *)

(** [Demangler] (/repo/src/demangler.rs:240-246): remaining text, node cache, and the two
    back-reference tables of [BackrefContext] (197-203).  The flags live in [env]. *)
Record st := mkSt {
  s_ms : mstring;
  s_store : store;
  s_fps : list handle;
  s_names : list handle
}.

(** A parser step; every error is propagated with [?], so no state survives an error. *)
(** The [Result] of the functions of /repo/src/demangler.rs:294-2330. *)
Definition M A := st -> res (A * st).

(** [Ok], [Err], a panic, the end of the fuel of the model, and [?], as in /repo/src/demangler.rs:316-349. *)
Definition ret {A} (a : A) : M A := fun s => Ok (a, s).
Definition fail {A} (e : error) : M A := fun _ => Err e.
Definition panic {A} : M A := fun _ => Panic.
Definition nofuel {A} : M A := fun _ => Fuel.
Definition bind {A B} (m : M A) (f : A -> M B) : M B := fun s =>
  match m s with
  | Ok (a, s') => f a s'
  | Err e => Err e
  | Panic => Panic
  | Fuel => Fuel
  end.
Notation "x <- m ;; k" := (bind m (fun x => k)) (at level 100, m at next level, right associativity).
Notation "' p <- m ;; k" := (bind m (fun x => match x with p => k end))
  (at level 100, p pattern, m at next level, right associativity).
Notation "m ;;; k" := (bind m (fun _ => k)) (at level 100, right associativity).

(** Access to the fields of [Demangler], /repo/src/demangler.rs:240-246. *)
Definition get : M st := fun s => Ok (s, s).
(** Assignments to the fields of [Demangler], /repo/src/demangler.rs:240-246. *)
Definition set_ms (m : mstring) (s : st) : st := mkSt m (s_store s) (s_fps s) (s_names s).
Definition set_store (sg : store) (s : st) : st := mkSt (s_ms s) sg (s_fps s) (s_names s).
Definition set_fps (l : list handle) (s : st) : st := mkSt (s_ms s) (s_store s) l (s_names s).
Definition set_names (l : list handle) (s : st) : st := mkSt (s_ms s) (s_store s) (s_fps s) l.

(** Run a consuming method of [MangledString] on [self.mangled_name]. *)
(** /repo/src/mangled_string.rs:33-91. *)
Definition lift {A} (f : mstring -> mres A) : M (option A) := fun s =>
  match f (s_ms s) with
  | Ok (a, m) => Ok (a, set_ms m s)
  | Err e => Err e
  | Panic => Panic
  | Fuel => Fuel
  end.

(** [Option::ok_or(e)?] *)
(** As in /repo/src/demangler.rs:351-370. *)
Definition ok_or {A} (o : option A) (e : error) : M A := match o with Some a => ret a | None => fail e end.
Definition is_some {A} (o : option A) : bool := match o with Some _ => true | None => false end.

(** [as_str], /repo/src/mangled_string.rs:94-97; [len_chars], 124-126. *)
Definition text : M str := fun s => Ok (ms_str (s_ms s), s).
Definition len_chars : M nat := fun s => Ok (ms_chars (s_ms s), s).

(** The consuming methods as the parser uses them (/repo/src/mangled_string.rs:33-91): optional, or with an error, as in /repo/src/demangler.rs:591-635. *)
Definition next_char (e : error) : M N := o <- lift try_consume ;; ok_or o e.
Definition eat_char (c : N) : M bool := o <- lift (try_consume_char c) ;; ret (is_some o).
Definition eat_str (p : str) : M bool := o <- lift (try_consume_str p) ;; ret (is_some o).
Definition expect_char (c : N) (e : error) : M unit := b <- eat_char c ;; if b then ret tt else fail e.
Definition expect_str (p : str) (e : error) : M unit := b <- eat_str p ;; if b then ret tt else fail e.
Definition eat_if (f : N -> bool) : M (option N) := lift (try_consume_char_if f).

(** A chain of [.or_else(|| try_consume_str(..))]. *)
(** As in /repo/src/demangler.rs:877-1034. *)
Fixpoint eat_first (l : list str) : M (option str) :=
  match l with
  | [] => ret None
  | p :: l => b <- eat_str p ;; if b then ret (Some p) else eat_first l
  end.

(** ** Node cache *)

(** [NodeCache::intern], /repo/src/cache.rs:313-333. *)
Definition intern (E : env) (n : node) : M handle := fun s =>
  if (e_nodes E <? N.of_nat (length (s_store s) + 1))%N then Err MaliciousInput
  else Ok (length (s_store s), set_store (s_store s ++ [n]) s).

(** [handle.resolve(&self.cache)], /repo/src/cache.rs:350-360. *)
Definition res_ (k : kind) (h : handle) : M node := fun s =>
  match resolve (s_store s) k h with Some n => Ok (n, s) | None => Panic end.

(** [handle.resolve_mut(&mut self.cache)] followed by an assignment, /repo/src/cache.rs:362-372. *)
Definition modify (k : kind) (h : handle) (f : node -> node) : M unit := fun s =>
  match resolve (s_store s) k h with
  | Some n => Ok (tt, set_store (upd (s_store s) h (f n)) s)
  | None => Panic
  end.

(** [set_quals]/[append_quals], /repo/src/nodes/intermediate.rs:457-485. *)
Definition node_quals (f : N -> N) (n : node) : node :=
  match n with
  | NPrim q k => NPrim (f q) k
  | NFSig g => NFSig (mkFsig (f (fs_quals g)) (fs_cc g) (fs_class g) (fs_ref g) (fs_ret g) (fs_variadic g) (fs_params g) (fs_noexcept g))
  | NThunk g ta => NThunk (mkFsig (f (fs_quals g)) (fs_cc g) (fs_class g) (fs_ref g) (fs_ret g) (fs_variadic g) (fs_params g) (fs_noexcept g)) ta
  | NPtr q a c p => NPtr (f q) a c p
  | NTag q a b => NTag (f q) a b
  | NArr q a b => NArr (f q) a b
  | NCustom q a => NCustom (f q) a
  | _ => n
  end.
Definition append_quals (q : N) := node_quals (fun old => N.lor old q).
Definition set_quals (q : N) := node_quals (fun _ => q).

(** [set_function_class], /repo/src/nodes/intermediate.rs:593-600. *)
Definition set_function_class (c : N) (n : node) : node :=
  match n with
  | NFSig g => NFSig (mkFsig (fs_quals g) (fs_cc g) c (fs_ref g) (fs_ret g) (fs_variadic g) (fs_params g) (fs_noexcept g))
  | NThunk g ta => NThunk (mkFsig (fs_quals g) (fs_cc g) c (fs_ref g) (fs_ret g) (fs_variadic g) (fs_params g) (fs_noexcept g)) ta
  | _ => n
  end.

(** [set_template_params], /repo/src/nodes/intermediate.rs:691-706. *)
Definition set_template_params (t : handle) (n : node) : node :=
  match n with
  | NVcall _ a => NVcall (Some t) a
  | NDyn _ a b => NDyn (Some t) a b
  | NNamed _ a => NNamed (Some t) a
  | NIntrinsic _ a => NIntrinsic (Some t) a
  | NLitOp _ a => NLitOp (Some t) a
  | NLsg _ a b => NLsg (Some t) a b
  | NConv _ a => NConv (Some t) a
  | NStructor _ a b => NStructor (Some t) a b
  | NRtti _ a b c d => NRtti (Some t) a b c d
  | _ => n
  end.

(** [set_name], /repo/src/nodes/intermediate.rs:810-821. *)
Definition set_sym_name (h : handle) (n : node) : node :=
  match n with
  | NMd5 _ => NMd5 h
  | NSpecial _ t q => NSpecial h t q
  | NLsgVar _ v => NLsgVar h v
  | NStrLit _ s t k => NStrLit (Some h) s t k
  | NVar _ sc ty => NVar (Some (VQualified h)) sc ty
  | NFunc _ sig => NFunc (Some h) sig
  | _ => n
  end.

(** [get_name], /repo/src/nodes/intermediate.rs:754-772. *)
Definition sym_name (n : node) : option handle :=
  match n with
  | NMd5 h | NSpecial h _ _ | NLsgVar h _ => Some h
  | NStrLit h _ _ _ => h
  | NVar (Some (VQualified h)) _ _ => Some h
  | NFunc h _ => h
  | _ => None
  end.

(** [QualifiedNameNode::get_unqualified_identifier], /repo/src/nodes/derived.rs:979-990
    (with [NodeHandle<INode>::downcast], /repo/src/cache.rs:466-490). *)
Definition unqualified_identifier (qn : handle) : M (option handle) :=
  q <- res_ KQual qn ;;
  match q with
  | NQual c =>
    n <- res_ KNodes c ;;
    match n with
    | NNodes l =>
      match rev l with
      | h :: _ => i <- res_ KAny h ;; ret (if is_ident i then Some h else None)
      | [] => ret None
      end
    | _ => panic
    end
  | _ => panic
  end.

(** [QualifiedNameNode::synthesize_from_id] and [synthesize_from_name] followed by the
    [intern] of the result, /repo/src/nodes/derived.rs:992-1013. *)
Definition synthesize_from_id (E : env) (id : handle) : M handle :=
  c <- intern E (NNodes [id]) ;; intern E (NQual c).
Definition synthesize_from_name (E : env) (name : str) : M handle :=
  id <- intern E (NNamed None name) ;; synthesize_from_id E id.

(** ** Small lexical functions *)

(** [demangle_pointer_ext_qualifiers], 530-542. *)
Definition pointer_ext_qualifiers : M N :=
  e <- eat_char (ch "E") ;;
  i <- eat_char (ch "I") ;;
  f <- eat_char (ch "F") ;;
  ret (N.lor (if e then Q_Pointer64 else Q_None)
      (N.lor (if i then Q_Restrict else Q_None)
             (if f then Q_Unaligned else Q_None))).

(** [demangle_number], 1046-1073. *)
Definition two64 : N := 0x10000000000000000.
Fixpoint number_loop (fuel : nat) (c : N) (n : N) : M N :=
  match fuel with
  | O => nofuel
  | S fuel =>
    if (c =? ch "@")%N then ret n
    else if is_rebased c then
      let n' := ((N.shiftl n 4) mod two64 + (c - ch "A"))%N in
      if (n' <? two64)%N
      then c' <- next_char InvalidNumber ;; number_loop fuel c' n'
      else panic
    else fail InvalidNumber
  end.
Definition demangle_number : M (N * bool) :=
  neg <- eat_char (ch "?") ;;
  c <- next_char InvalidNumber ;;
  if is_digit c then ret (c - ch "0" + 1, neg)%N
  else
    s <- text ;;
    n <- number_loop (S (length s)) c 0%N ;;
    ret (n, neg).

(** [demangle_unsigned], 1075-1082; [demangle_signed], 1084-1090. *)
Definition demangle_unsigned : M N :=
  '(n, neg) <- demangle_number ;;
  if neg then fail InvalidUnsigned else ret n.
Definition two63 : N := 0x8000000000000000.
Definition demangle_signed : M Z :=
  '(n, neg) <- demangle_number ;;
  if (n <? two63)%N then ret (if neg : bool then - Z.of_N n else Z.of_N n)%Z else fail InvalidSigned.

(** [as u32] and [as i32] of an [i64] (489-508), and the checked conversions. *)
Definition two32 : N := 0x100000000.
Definition as_u32 (z : Z) : N := Z.to_N (z mod 4294967296)%Z.
Definition as_i32 (z : Z) : Z := ((z + 2147483648) mod 4294967296 - 2147483648)%Z.
Definition to_u32 (n : N) (e : error) : M N := if (n <? two32)%N then ret n else fail e.
Definition to_i32 (z : Z) (e : error) : M Z :=
  if (-2147483648 <=? z)%Z && (z <? 2147483648)%Z then ret z else fail e.

(** [demangle_qualifiers], 2149-2167. *)
Definition qualifiers_table : list (N * (N * bool)) :=
  [(ch "Q", (Q_None, true)); (ch "R", (Q_Const, true)); (ch "S", (Q_Volatile, true));
   (ch "T", (N.lor Q_Const Q_Volatile, true));
   (ch "A", (Q_None, false)); (ch "B", (Q_Const, false)); (ch "C", (Q_Volatile, false));
   (ch "D", (N.lor Q_Const Q_Volatile, false))].
Definition demangle_qualifiers : M (N * bool) :=
  f <- next_char InvalidQualifiers ;; ok_or (lookup f qualifiers_table) InvalidQualifiers.

(** [demangle_pointer_cv_qualifiers], 2169-2189. *)
Definition pointer_cv_table : list (N * (N * affinity)) :=
  [(ch "A", (Q_None, AReference)); (ch "P", (Q_None, APointer)); (ch "Q", (Q_Const, APointer));
   (ch "R", (Q_Volatile, APointer)); (ch "S", (N.lor Q_Const Q_Volatile, APointer))].
Definition demangle_pointer_cv_qualifiers : M (N * affinity) :=
  rv <- eat_str (L "$$Q") ;;
  if rv then ret (Q_None, ARValueReference)
  else f <- next_char InvalidPointerCVQualifiers ;;
       ok_or (lookup f pointer_cv_table) InvalidPointerCVQualifiers.

(** [demangle_function_ref_qualifier], 2191-2200. *)
Definition demangle_function_ref_qualifier : M (option ref_qual) :=
  g <- eat_char (ch "G") ;;
  if g then ret (Some RQReference)
  else h <- eat_char (ch "H") ;;
       if h then ret (Some RQRValueReference) else ret None.

(** [demangle_calling_convention], 2022-2041: any other letter is accepted and means "none". *)
Definition cc_table : list (N * call_conv) :=
  [(ch "A", Cdecl); (ch "B", Cdecl); (ch "C", Pascal); (ch "D", Pascal); (ch "E", Thiscall);
   (ch "F", Thiscall); (ch "G", Stdcall); (ch "H", Stdcall); (ch "I", Fastcall); (ch "J", Fastcall);
   (ch "M", Clrcall); (ch "N", Clrcall); (ch "O", Eabi); (ch "P", Eabi); (ch "Q", Vectorcall);
   (ch "S", Swift); (ch "W", SwiftAsync)].
Definition demangle_calling_convention : M (option call_conv) :=
  f <- next_char InvalidCallingConvention ;; ret (lookup f cc_table).

(** [demangle_variable_storage_class], 2043-2056. *)
Definition storage_table : list (N * storage_class) :=
  [(ch "0", PrivateStatic); (ch "1", ProtectedStatic); (ch "2", PublicStatic); (ch "3", Global);
   (ch "4", FunctionLocalStatic)].
Definition demangle_variable_storage_class : M storage_class :=
  f <- next_char InvalidVariableStorageClass ;;
  ok_or (lookup f storage_table) InvalidVariableStorageClass.

(** [demangle_throw_specification], 2058-2066. *)
Definition demangle_throw_specification : M bool :=
  e <- eat_str (L "_E") ;;
  if e then ret true
  else z <- eat_char (ch "Z") ;; if z then ret false else fail InvalidThrowSpecification.

(** [demangle_function_class], 1947-2020. *)
Definition function_class_table : list (N * N) :=
  [(ch "9", N.lor FC_ExternC FC_NoParameterList);
   (ch "A", FC_Private);
   (ch "B", N.lor FC_Private FC_Far);
   (ch "C", N.lor FC_Private FC_Static);
   (ch "D", N.lor (N.lor FC_Private FC_Static) FC_Far);
   (ch "E", N.lor FC_Private FC_Virtual);
   (ch "F", N.lor (N.lor FC_Private FC_Virtual) FC_Far);
   (ch "G", N.lor FC_Private FC_StaticThisAdjust);
   (ch "H", N.lor (N.lor FC_Private FC_StaticThisAdjust) FC_Far);
   (ch "I", FC_Protected);
   (ch "J", N.lor FC_Protected FC_Far);
   (ch "K", N.lor FC_Protected FC_Static);
   (ch "L", N.lor (N.lor FC_Protected FC_Static) FC_Far);
   (ch "M", N.lor FC_Protected FC_Virtual);
   (ch "N", N.lor (N.lor FC_Protected FC_Virtual) FC_Far);
   (ch "O", N.lor (N.lor FC_Protected FC_Virtual) FC_StaticThisAdjust);
   (ch "P", N.lor (N.lor (N.lor FC_Protected FC_Virtual) FC_StaticThisAdjust) FC_Far);
   (ch "Q", FC_Public);
   (ch "R", N.lor FC_Public FC_Far);
   (ch "S", N.lor FC_Public FC_Static);
   (ch "T", N.lor (N.lor FC_Public FC_Static) FC_Far);
   (ch "U", N.lor FC_Public FC_Virtual);
   (ch "V", N.lor (N.lor FC_Public FC_Virtual) FC_Far);
   (ch "W", N.lor (N.lor FC_Public FC_Virtual) FC_StaticThisAdjust);
   (ch "X", N.lor (N.lor (N.lor FC_Public FC_Virtual) FC_StaticThisAdjust) FC_Far);
   (ch "Y", FC_Global);
   (ch "Z", N.lor FC_Global FC_Far)].
(** 1947-2020, after a dollar sign. *)
Definition virtual_class_table : list (N * N) :=
  [(ch "0", N.lor FC_Private FC_Virtual);
   (ch "1", N.lor (N.lor FC_Private FC_Virtual) FC_Far);
   (ch "2", N.lor FC_Protected FC_Virtual);
   (ch "3", N.lor (N.lor FC_Protected FC_Virtual) FC_Far);
   (ch "4", N.lor FC_Public FC_Virtual);
   (ch "5", N.lor (N.lor FC_Public FC_Virtual) FC_Far)].
(** 1947-2020, the whole function. *)
Definition demangle_function_class : M N :=
  f <- next_char InvalidFunctionClass ;;
  if (f =? ch "$")%N then
    r <- eat_char (ch "R") ;;
    let vflag := N.lor FC_VirtualThisAdjust (if r then FC_VirtualThisAdjustEx else FC_None) in
    g <- next_char InvalidFunctionClass ;;
    c <- ok_or (lookup g virtual_class_table) InvalidFunctionClass ;;
    ret (N.lor c vflag)
  else ok_or (lookup f function_class_table) InvalidFunctionClass.

(** [demangle_primitive_type], 591-635. *)
Definition prim_table : list (N * prim_kind) :=
  [(ch "X", Void); (ch "D", Char); (ch "C", Schar); (ch "E", Uchar); (ch "F", Short); (ch "G", Ushort);
   (ch "H", Int); (ch "I", Uint); (ch "J", Long); (ch "K", Ulong); (ch "M", Float); (ch "N", Double);
   (ch "O", Ldouble)].
Definition prim_table_ext : list (N * prim_kind) :=
  [(ch "N", Bool_); (ch "J", Int64); (ch "K", Uint64); (ch "W", Wchar); (ch "Q", Char8); (ch "S", Char16);
   (ch "U", Char32); (ch "P", Auto); (ch "T", DecltypeAuto)].
Definition demangle_primitive_kind : M prim_kind :=
  t <- eat_str (L "$$T") ;;
  if t then ret Nullptr
  else
    f <- next_char InvalidPrimitiveType ;;
    if (f =? ch "_")%N then
      g <- next_char InvalidPrimitiveType ;; ok_or (lookup g prim_table_ext) InvalidPrimitiveType
    else ok_or (lookup f prim_table) InvalidPrimitiveType.
(** 591-635, the whole function. *)
Definition demangle_primitive_type (E : env) : M handle :=
  k <- demangle_primitive_kind ;; intern E (NPrim Q_None k).

(** [demangle_char_literal], 2074-2147. *)
Definition digit_escapes : list N :=
  [ch ","; ch "/"; ch "\"; ch ":"; ch "."; ch " "; 10; 9; 39; ch "-"]%N.
Definition demangle_char_literal : M N :=
  c <- next_char InvalidCharLiteral ;;
  if (c =? ch "?")%N then
    d <- next_char InvalidCharLiteral ;;
    if (d =? ch "$")%N then
      o <- lift try_consume_2_chars ;;
      '(x, y) <- ok_or o InvalidCharLiteral ;;
      c1 <- ok_or (rebased_to_number x) InvalidCharLiteral ;;
      c2 <- ok_or (rebased_to_number y) InvalidCharLiteral ;;
      ret (N.lor (N.shiftl c1 4) c2)
    else if is_digit d then
      match nth_error digit_escapes (N.to_nat (d - ch "0")) with
      | Some r => ret r
      | None => panic   (* get_unchecked out of range *)
      end
    else if is_lower d then ret (0xE1 + (d - ch "a"))%N
    else if is_upper d then ret (0xC1 + (d - ch "A"))%N
    else fail InvalidCharLiteral
  else if (c <? 256)%N then ret c else fail InvalidCharLiteral.

(** [demangle_wchar_literal], 2068-2072. *)
Definition demangle_wchar_literal : M N :=
  c1 <- demangle_char_literal ;;
  c2 <- demangle_char_literal ;;
  ret (N.lor (N.shiftl c1 8) c2).

(** [output_escaped_char], 2241-2262. *)
Definition escape_table : list (N * str) :=
  [(0x00, L "\0"); (0x27, L "\'"); (0x22, L "\"""); (0x5C, L "\\"); (0x07, L "\a"); (0x08, L "\b");
   (0x0C, L "\f"); (0x0A, L "\n"); (0x0D, L "\r"); (0x09, L "\t"); (0x0B, L "\v")]%N.
Definition escaped_char (c : N) : str :=
  match lookup c escape_table with
  | Some s => s
  | None => if in_range 0x20 0x7E c then [c] else L "\x" ++ hex2_N c
  end.

(** [guess_char_byte_size], 2267-2301. *)
Fixpoint leading_zeros (l : list N) : nat :=
  match l with 0%N :: l => S (leading_zeros l) | _ => 0 end.
Definition guess_char_byte_size (bytes : list N) (num : N) : option nat :=
  if (num =? 0)%N then None
  else if (num mod 2 =? 1)%N then Some 1
  else if (num <? 32)%N then
    let z := leading_zeros (rev bytes) in
    if (4 <=? z) && (num mod 4 =? 0)%N then Some 4
    else if 2 <=? z then Some 2
    else Some 1
  else
    let e := length (filter (fun b => (b =? 0)%N) bytes) in
    if (2 * length bytes / 3 <=? e) && (num mod 4 =? 0)%N then Some 4
    else if length bytes / 3 <=? e then Some 2
    else Some 1.

(** [decode_multi_byte_char], 2303-2329. *)
Fixpoint little_endian (l : list N) (i : N) : N :=
  match l with [] => 0%N | c :: l => N.lor (N.shiftl c (8 * i)) (little_endian l (i + 1)) end.
Definition decode_multi_byte_char (bytes : list N) (idx sz : nat) : option N :=
  if (sz =? 1) || (sz =? 2) || (sz =? 4) then
    let off := idx * sz in
    if length bytes <? off then None
    else let rest := skipn off bytes in
         if length rest <? sz then None
         else Some (little_endian (firstn sz rest) 0)
  else None.

(** [consume_special_intrinsic_kind], 2202-2239. *)
Definition special_table : list (str * sik) :=
  [(L "?_7", SVftable); (L "?_8", SVbtable); (L "?_9", SVcallThunk); (L "?_A", STypeof);
   (L "?_B", SLocalStaticGuard); (L "?_C", SStringLiteralSymbol); (L "?_P", SUdtReturning);
   (L "?_R0", SRttiTypeDescriptor); (L "?_R1", SRttiBaseClassDescriptor);
   (L "?_R2", SRttiBaseClassArray); (L "?_R3", SRttiClassHierarchyDescriptor);
   (L "?_R4", SRttiCompleteObjLocator); (L "?_S", SLocalVftable); (L "?__E", SDynamicInitializer);
   (L "?__F", SDynamicAtexitDestructor); (L "?__J", SLocalStaticThreadGuard)].
Fixpoint consume_special (t : list (str * sik)) : M (option sik) :=
  match t with
  | [] => ret None
  | (p, k) :: t => b <- eat_str p ;; if b then ret (Some k) else consume_special t
  end.

(** [translate_intrinsic_function_code], 1287-1421: the three 36-entry tables, indexed by
    0-9A-Z. *)
Inductive code_group := Basic | Under | DoubleUnder.
Definition basic_table : list (option ifk) :=
  [None; None; Some IFNew; Some IFDelete; Some IFAssign; Some IFRightShift; Some IFLeftShift;
   Some IFLogicalNot; Some IFEquals; Some IFNotEquals; Some IFArraySubscript; None; Some IFPointer;
   Some IFDereference; Some IFIncrement; Some IFDecrement; Some IFMinus; Some IFPlus;
   Some IFBitwiseAnd; Some IFMemberPointer; Some IFDivide; Some IFModulus; Some IFLessThan;
   Some IFLessThanEqual; Some IFGreaterThan; Some IFGreaterThanEqual; Some IFComma; Some IFParens;
   Some IFBitwiseNot; Some IFBitwiseXor; Some IFBitwiseOr; Some IFLogicalAnd; Some IFLogicalOr;
   Some IFTimesEqual; Some IFPlusEqual; Some IFMinusEqual].
Definition under_table : list (option ifk) :=
  [Some IFDivEqual; Some IFModEqual; Some IFRshEqual; Some IFLshEqual; Some IFBitwiseAndEqual;
   Some IFBitwiseOrEqual; Some IFBitwiseXorEqual; None; None; None; None; None; None;
   Some IFVbaseDtor; Some IFVecDelDtor; Some IFDefaultCtorClosure; Some IFScalarDelDtor;
   Some IFVecCtorIter; Some IFVecDtorIter; Some IFVecVbaseCtorIter; Some IFVdispMap;
   Some IFEHVecCtorIter; Some IFEHVecDtorIter; Some IFEHVecVbaseCtorIter; Some IFCopyCtorClosure;
   None; None; None; None; Some IFLocalVftableCtorClosure; Some IFArrayNew; Some IFArrayDelete;
   None; None; None; None].
(** 1287-1421, the third table. *)
Definition double_under_table : list (option ifk) :=
  [None; None; None; None; None; None; None; None; None; None; Some IFManVectorCtorIter;
   Some IFManVectorDtorIter; Some IFEHVectorCopyCtorIter; Some IFEHVectorVbaseCopyCtorIter; None;
   None; Some IFVectorCopyCtorIter; Some IFVectorVbaseCopyCtorIter;
   Some IFManVectorVbaseCopyCtorIter; None; None; Some IFCoAwait; Some IFSpaceship; None; None;
   None; None; None; None; None; None; None; None; None; None; None].
(** 1287-1421, the choice of the table. *)
Definition group_table (g : code_group) : list (option ifk) :=
  match g with Basic => basic_table | Under => under_table | DoubleUnder => double_under_table end.
(** 1287-1421, the lookup. *)
Definition translate_intrinsic (c : N) (g : code_group) : M (option ifk) :=
  if is_digit c || is_upper c then
    let i := if is_digit c then (c - ch "0")%N else (c - ch "A" + 10)%N in
    match nth_error (group_table g) (N.to_nat i) with
    | Some o => ret o
    | None => panic   (* get_unchecked out of range *)
    end
  else fail InvalidIntrinsicFunctionCode.

(** [QualifierMangleMode], 205-211; [NameBackrefBehavior], 213-232, as the pair of its bits. *)
Inductive qmm := QDrop | QMangle | QResult.
Record nbb := mkNbb { nbb_template : bool; nbb_simple : bool }.
Definition NBB_Template := mkNbb true false.
Definition NBB_Simple := mkNbb false true.

(** The three functions through which every recursion of the parser passes. *)
(** [do_parse], 294-314; [demangle_type], 546-589; [demangle_template_instantiation_name], 1252-1285 (see [knot_of]). *)
Record knot := mkKnot {
  k_parse : M handle;
  k_type : qmm -> M handle;
  k_tinst : nbb -> M handle
}.

Section Parser.
  Variable E : env.
  Variable K : knot.

  (** Run a write on a local buffer ([write!(..)?]). *)
  (** As at 1115-1123 and 1781-1792. *)
  Definition run_w (w : W) (b : buf) : M buf := fun s =>
    match w b with
    | (b, Ok tt) => Ok (b, s)
    | (_, Err e) => Err e
    | (_, Panic) => Panic
    | (_, Fuel) => Fuel
    end.
  (** [ob.try_into()?], /repo/src/demangler.rs:174-182: the text of a local buffer. *)
  Definition take_text (b : buf) : M str := ok_or (from_utf8 (b_bytes b)) Utf8Error.
  (** Render into a fresh local buffer and take its text (1115-1123, 1781-1792). *)
  Definition render (w : store -> W) : M str :=
    s <- get ;; b <- run_w (w (s_store s)) (mkBuf [] 0) ;; take_text b.

  (** The names currently remembered, resolved. *)
  (** 1094-1110. *)
  Fixpoint resolve_names (l : list handle) : M (list str) :=
    match l with
    | [] => ret []
    | h :: l =>
      n <- res_ KNamed h ;;
      match n with
      | NNamed _ name => r <- resolve_names l ;; ret (name :: r)
      | _ => panic
      end
    end.

  (** [memorize_string], 1094-1110.  ([iter().all(..)] stops at the first match; the
      remaining handles resolve without effect.) *)
  Definition memorize_string (name : str) : M unit :=
    s <- get ;;
    if 10 <=? length (s_names s) then ret tt
    else
      known <- resolve_names (s_names s) ;;
      if existsb (str_eqb name) known then ret tt
      else
        h <- intern E (NNamed None name) ;;
        (fun s => Ok (tt, set_names (s_names s ++ [h]) s)).

  (** [memorize_identifier], 1112-1124. *)
  Definition memorize_identifier (id : handle) : M unit :=
    name <- render (fun sg => output E sg KIdent id) ;;
    memorize_string name.

  (** [demangle_simple_string], 1925-1945. *)
  Definition demangle_simple_string (memorize : bool) : M str :=
    s <- text ;;
    pos <- ok_or (find_char (ch "@") s) InvalidSimpleString ;;
    if pos =? 0 then fail InvalidSimpleString
    else
      o <- lift (try_consume_n_bytes pos) ;;
      name <- ok_or o InvalidSimpleString ;;
      expect_char (ch "@") InvalidSimpleString ;;;
      (if memorize then memorize_string name else ret tt) ;;;
      ret name.

  (** [demangle_simple_name], 1737-1743. *)
  Definition demangle_simple_name (memorize : bool) : M handle :=
    name <- demangle_simple_string memorize ;; intern E (NNamed None name).

  (** [demangle_back_ref_name], 1238-1250. *)
  Definition demangle_back_ref_name : M handle :=
    o <- eat_if is_digit ;;
    c <- ok_or o InvalidBackRef ;;
    s <- get ;;
    ok_or (nth_error (s_names s) (N.to_nat (c - ch "0"))) InvalidBackRef.

  (** [demangle_anonymous_namespace_name], 1745-1765. *)
  Definition demangle_anonymous_namespace_name : M handle :=
    expect_str (L "?A") InvalidAnonymousNamespaceName ;;;
    s <- text ;;
    pos <- ok_or (find_char (ch "@") s) InvalidAnonymousNamespaceName ;;
    o <- lift (try_consume_n_bytes pos) ;;
    key <- ok_or o InvalidAnonymousNamespaceName ;;
    memorize_string key ;;;
    expect_char (ch "@") InvalidAnonymousNamespaceName ;;;
    intern E (NNamed None (L "`anonymous namespace'")).

  (** [demangle_locally_scoped_name_piece], 1767-1794. *)
  Definition demangle_locally_scoped_name_piece : M handle :=
    expect_char (ch "?") InvalidLocallyScopedNamePiece ;;;
    '(number, neg) <- demangle_number ;;
    if neg : bool then fail InvalidLocallyScopedNamePiece
    else
      expect_char (ch "?") InvalidLocallyScopedNamePiece ;;;
      scope <- k_parse K ;;
      name <- render (fun sg => w_str E (L "`") >> output E sg KSym scope >>
                                w_str E (L "'::`" ++ dec_N number ++ L "'")) ;;
      intern E (NNamed None name).

  (** [demangle_name_scope_piece], 1220-1236. *)
  Definition demangle_name_scope_piece : M handle :=
    s <- text ;;
    if first_is is_digit s then demangle_back_ref_name
    else if starts_with (L "?$") s then k_tinst K NBB_Template
    else if starts_with (L "?A") s then demangle_anonymous_namespace_name
    else
      match local_scope_pattern s with
      | Ok true => demangle_locally_scoped_name_piece
      | Ok false => demangle_simple_name true
      | _ => panic
      end.

  (** [demangle_name_scope_chain], 1198-1218; [acc] is the reversed component list, i.e. the
      list after [nodes.reverse()]. *)
  Fixpoint scope_loop (fuel : nat) (acc : list handle) : M (list handle) :=
    match fuel with
    | O => nofuel
    | S fuel =>
      done <- eat_char (ch "@") ;;
      if done then ret acc
      else
        s <- text ;;
        if is_empty s then fail InvalidNameScopeChain
        else h <- demangle_name_scope_piece ;; scope_loop fuel (h :: acc)
    end.
  Definition demangle_name_scope_chain (id : handle) : M handle :=
    s <- text ;;
    l <- scope_loop (S (length s)) [id] ;;
    c <- intern E (NNodes l) ;;
    intern E (NQual c).

  (** [demangle_function_identifier_code_group], 1436-1460, with the three leaf functions
      1462-1487. *)
  Definition demangle_function_identifier_code_group (g : code_group) : M handle :=
    c <- next_char InvalidFunctionIdentifierCode ;;
    let intrinsic := (op <- translate_intrinsic c g ;; intern E (NIntrinsic None op)) in
    match g with
    | Basic =>
      if one_of (L "01") c then intern E (NStructor None None (c =? ch "1")%N)
      else if (c =? ch "B")%N then intern E (NConv None None)
      else intrinsic
    | DoubleUnder =>
      if (c =? ch "K")%N then
        name <- demangle_simple_string false ;; intern E (NLitOp None name)
      else intrinsic
    | Under => intrinsic
    end.

  (** [demangle_function_identifier_code], 1423-1434. *)
  Definition demangle_function_identifier_code : M handle :=
    expect_char (ch "?") InvalidFunctionIdentifierCode ;;;
    uu <- eat_str (L "__") ;;
    if uu then demangle_function_identifier_code_group DoubleUnder
    else
      u <- eat_char (ch "_") ;;
      if u then demangle_function_identifier_code_group Under
      else demangle_function_identifier_code_group Basic.

  (** [demangle_unqualified_type_name], 1162-1177. *)
  Definition demangle_unqualified_type_name (memorize : bool) : M handle :=
    s <- text ;;
    if first_is is_digit s then demangle_back_ref_name
    else if starts_with (L "?$") s then k_tinst K NBB_Template
    else demangle_simple_name memorize.

  (** [demangle_unqualified_symbol_name], 1179-1196. *)
  Definition demangle_unqualified_symbol_name (b : nbb) : M handle :=
    s <- text ;;
    if first_is is_digit s then demangle_back_ref_name
    else if starts_with (L "?$") s then k_tinst K b
    else if starts_with (L "?") s then demangle_function_identifier_code
    else demangle_simple_name (nbb_simple b).

  (** [demangle_fully_qualified_type_name], 1126-1130. *)
  Definition demangle_fully_qualified_type_name : M handle :=
    id <- demangle_unqualified_type_name true ;; demangle_name_scope_chain id.

  (** [demangle_fully_qualified_symbol_name], 1132-1160. *)
  Definition set_class (c : handle) (n : node) : node :=
    match n with NStructor tp _ d => NStructor tp (Some c) d | _ => n end.
  Definition demangle_fully_qualified_symbol_name : M handle :=
    id <- demangle_unqualified_symbol_name NBB_Simple ;;
    qn <- demangle_name_scope_chain id ;;
    i <- res_ KIdent id ;;
    match i with
    | NStructor _ _ _ =>
      q <- res_ KQual qn ;;
      match q with
      | NQual c =>
        n <- res_ KNodes c ;;
        match n with
        | NNodes l =>
          cls <- (if length l <? 2 then fail InvalidFullyQualifiedSymbolName
                  else match nth_error l (length l - 2) with
                       | None => fail InvalidFullyQualifiedSymbolName
                       | Some h => x <- res_ KAny h ;;
                                   if is_ident x then ret h else fail InvalidFullyQualifiedSymbolName
                       end) ;;
          modify KStructor id (set_class cls) ;;;
          ret qn
        | _ => panic
        end
      | _ => panic
      end
    | _ => ret qn
    end.

  (** [demangle_custom_type], 637-652. *)
  Definition demangle_custom_type : M handle :=
    expect_char (ch "?") InvalidCustomType ;;;
    id <- demangle_unqualified_type_name true ;;
    at_ <- eat_char (ch "@") ;;
    if at_ then intern E (NCustom Q_None id) else fail InvalidCustomType.

  (** [demangle_class_type], 654-680. *)
  Definition demangle_class_type : M handle :=
    f <- next_char InvalidClassType ;;
    t <- (if (f =? ch "T")%N then ret TKUnion
          else if (f =? ch "U")%N then ret TKStruct
          else if (f =? ch "V")%N then ret TKClass
          else if (f =? ch "W")%N then
            four <- eat_char (ch "4") ;; if four then ret TKEnum else fail InvalidClassType
          else fail InvalidClassType) ;;
    qn <- demangle_fully_qualified_type_name ;;
    intern E (NTag Q_None qn t).

  (** [demangle_function_parameter_list], 815-875: the loop, then the terminator.  The result
      is the parameter array and the variadic flag. *)
  Fixpoint params_loop (fuel : nat) (acc : list handle) : M (list handle) :=
    match fuel with
    | O => nofuel
    | S fuel =>
      s <- text ;;
      if first_is (one_of (L "@Z")) s then ret (rev acc)
      else if is_empty s then fail InvalidFunctionParameterList
      else
        o <- eat_if is_digit ;;
        match o with
        | Some d =>
          s <- get ;;
          h <- ok_or (nth_error (s_fps s) (N.to_nat (d - ch "0"))) InvalidFunctionParameterList ;;
          params_loop fuel (h :: acc)
        | None =>
          old <- len_chars ;;
          tn <- k_type K QDrop ;;
          new <- len_chars ;;
          if old <? new then panic
          else
            match old - new with
            | 0 => fail InvalidFunctionParameterList
            | 1 => ret tt
            | _ => fun s => Ok (tt, if length (s_fps s) <? 10 then set_fps (s_fps s ++ [tn]) s else s)
            end ;;;
            params_loop fuel (tn :: acc)
        end
    end.
  (** 815-875, the whole function. *)
  Definition demangle_function_parameter_list : M (option handle * bool) :=
    x <- eat_char (ch "X") ;;
    if x then ret (None, false)
    else
      s <- text ;;
      l <- params_loop (S (length s)) [] ;;
      na <- intern E (NNodes l) ;;
      at_ <- eat_char (ch "@") ;;
      if at_ then ret (Some na, false)
      else
        z <- eat_char (ch "Z") ;;
        if z then ret (Some na, true) else fail InvalidFunctionParameterList.

  (** [demangle_function_type], 742-767. *)
  Definition demangle_function_type (has_this_quals : bool) : M handle :=
    '(quals, rq) <- (if has_this_quals then
                       q1 <- pointer_ext_qualifiers ;;
                       rq <- demangle_function_ref_qualifier ;;
                       '(q2, _) <- demangle_qualifiers ;;
                       ret (N.lor q1 q2, rq)
                     else ret (Q_None, None)) ;;
    cc <- demangle_calling_convention ;;
    is_structor <- eat_char (ch "@") ;;
    rt <- (if is_structor : bool then ret None else t <- k_type K QResult ;; ret (Some t)) ;;
    '(params, variadic) <- demangle_function_parameter_list ;;
    ne <- demangle_throw_specification ;;
    intern E (NFSig (mkFsig quals cc FC_Global rq rt variadic params ne)).

  (** [demangle_pointer_type], 684-702. *)
  Definition demangle_pointer_type : M handle :=
    '(quals, aff) <- demangle_pointer_cv_qualifiers ;;
    six <- eat_char (ch "6") ;;
    '(quals, pointee) <- (if six : bool then p <- demangle_function_type false ;; ret (quals, p)
                          else ext <- pointer_ext_qualifiers ;;
                               p <- k_type K QMangle ;;
                               ret (N.lor quals ext, p)) ;;
    intern E (NPtr quals (Some aff) None pointee).

  (** [demangle_member_pointer_type], 704-740. *)
  Definition demangle_member_pointer_type : M handle :=
    '(quals, aff) <- demangle_pointer_cv_qualifiers ;;
    match aff with
    | APointer =>
      ext <- pointer_ext_qualifiers ;;
      eight <- eat_char (ch "8") ;;
      if eight : bool then
        cls <- demangle_fully_qualified_type_name ;;
        p <- demangle_function_type true ;;
        intern E (NPtr (N.lor quals ext) (Some aff) (Some cls) p)
      else
        '(pq, is_member) <- demangle_qualifiers ;;
        if is_member : bool then
          cls <- demangle_fully_qualified_type_name ;;
          p <- k_type K QDrop ;;
          modify KType p (set_quals pq) ;;;
          intern E (NPtr (N.lor quals ext) (Some aff) (Some cls) p)
        else fail InvalidMemberPointerType
    | _ => fail InvalidMemberPointerType
    end.

  (** [demangle_array_type], 769-812.  [for _ in 0..rank] counts [rank] down; every iteration
      consumes a character, so the text length bounds the number of iterations that succeed. *)
  Fixpoint dims_loop (fuel : nat) (rank : N) (acc : list handle) : M (list handle) :=
    if (rank =? 0)%N then ret (rev acc)
    else
      match fuel with
      | O => nofuel
      | S fuel =>
        '(v, neg) <- demangle_number ;;
        if neg : bool then fail InvalidArrayType
        else h <- intern E (NInt v neg) ;; dims_loop fuel (rank - 1)%N (h :: acc)
      end.
  Definition demangle_array_type : M handle :=
    expect_char (ch "Y") InvalidArrayType ;;;
    '(rank, neg) <- demangle_number ;;
    if neg || (rank =? 0)%N then fail InvalidArrayType
    else
      s <- text ;;
      l <- dims_loop (S (length s)) rank [] ;;
      dims <- intern E (NNodes l) ;;
      c <- eat_str (L "$$C") ;;
      quals <- (if c then '(q, is_member) <- demangle_qualifiers ;;
                          if is_member : bool then fail InvalidArrayType else ret q
                else ret Q_None) ;;
      el <- k_type K QDrop ;;
      intern E (NArr quals dims el).

  (** [demangle_type], 546-589. *)
  Definition demangle_type (m : qmm) : M handle :=
    quals <- match m with
             | QMangle => '(q, _) <- demangle_qualifiers ;; ret q
             | QResult => b <- eat_char (ch "?") ;;
                          if b then '(q, _) <- demangle_qualifiers ;; ret q else ret Q_None
             | QDrop => ret Q_None
             end ;;
    s <- text ;;
    if is_empty s then fail InvalidType
    else
      ty <- (if is_tag_type s then demangle_class_type
             else if is_pointer_type s then
               match is_member_pointer s with
               | Some true => demangle_member_pointer_type
               | Some false => demangle_pointer_type
               | None => fail InvalidType
               end
             else if is_array_type s then demangle_array_type
             else if is_function_type s then
               a8 <- eat_str (L "$$A8@@") ;;
               if a8 then demangle_function_type true
               else a6 <- eat_str (L "$$A6") ;;
                    if a6 then demangle_function_type false else fail InvalidType
             else if is_custom_type s then demangle_custom_type
             else demangle_primitive_type E) ;;
      modify KType ty (append_quals quals) ;;;
      ret ty.

  (** [demangle_template_parameter_list], 877-1034.  One iteration of the loop body after the
      separator tests: parse one argument and return its node. *)
  Fixpoint read_offsets (count : nat) : M (list Z) :=
    match count with
    | O => ret []
    | S n => z <- demangle_signed ;; r <- read_offsets n ;; ret (z :: r)
    end.
  (** The last character of the matched literal selects the number of offsets, 955-964 and
      1000-1004. *)
  Definition inheritance_count (p : str) : option nat :=
    match rev p with
    | c :: _ => lookup c [(ch "1", 0); (ch "H", 1); (ch "I", 2); (ch "J", 3)]
    | [] => None
    end.
  Definition data_member_count (p : str) : option nat :=
    match rev p with
    | c :: _ => lookup c [(ch "G", 3); (ch "F", 2)]
    | [] => None
    end.
  Definition template_symbol : M (option handle) :=
    s <- text ;;
    if starts_with (L "?") s then
      sym <- k_parse K ;;
      n <- res_ KSym sym ;;
      match sym_name n with
      | None => fail InvalidTemplateParameterList
      | Some qn =>
        o <- unqualified_identifier qn ;;
        id <- ok_or o InvalidTemplateParameterList ;;
        memorize_identifier id ;;;
        ret (Some sym)
      end
    else ret None.
  (** 877-1034, one argument. *)
  Definition template_arg : M handle :=
    auto <- eat_str (L "$M") ;;
    (if auto then k_type K QDrop ;;; ret tt else ret tt) ;;;
    y <- eat_str (L "$$Y") ;;
    if y then demangle_fully_qualified_type_name
    else
    b <- eat_str (L "$$B") ;;
    if b then k_type K QDrop
    else
    c <- eat_str (L "$$C") ;;
    if c then k_type K QMangle
    else
    m <- eat_first (if auto then [L "1"; L "H"; L "I"; L "J"] else [L "$1"; L "$H"; L "$I"; L "$J"]) ;;
    match m with
    | Some p =>
      sym <- template_symbol ;;
      match inheritance_count p with
      | None => fail InvalidTemplateParameterList
      | Some count =>
        offs <- read_offsets count ;;
        intern E (NTpr sym offs (Some APointer) true)
      end
    | None =>
      s <- text ;;
      if starts_with (L "$E?") s then
        expect_str (L "$E") InvalidTemplateParameterList ;;;
        sym <- k_parse K ;;
        intern E (NTpr (Some sym) [] (Some AReference) false)
      else
      d <- eat_first (if auto then [L "F"; L "G"] else [L "$F"; L "$G"]) ;;
      match d with
      | Some p =>
        match data_member_count p with
        | None => fail InvalidTemplateParameterList
        | Some count =>
          offs <- read_offsets count ;;
          intern E (NTpr None offs None true)
        end
      | None =>
        z <- eat_str (if auto then L "0" else L "$0") ;;
        if z then
          '(v, neg) <- demangle_number ;; intern E (NInt v neg)
        else k_type K QDrop
      end
    end.
  (** 877-1034, the loop. *)
  Fixpoint targs_loop (fuel : nat) (acc : list handle) : M (list handle) :=
    match fuel with
    | O => nofuel
    | S fuel =>
      done <- eat_char (ch "@") ;;
      if done then ret (rev acc)
      else
        sep <- eat_first [L "$S"; L "$$V"; L "$$$V"; L "$$Z"] ;;
        match sep with
        | Some _ => targs_loop fuel acc
        | None =>
          s <- text ;;
          if is_empty s then fail InvalidTemplateParameterList
          else h <- template_arg ;; targs_loop fuel (h :: acc)
        end
    end.
  (** 877-1034, the whole function. *)
  Definition demangle_template_parameter_list : M handle :=
    s <- text ;;
    l <- targs_loop (S (length s)) [] ;;
    intern E (NNodes l).

  (** [demangle_template_instantiation_name], 1252-1285. *)
  Definition is_conv_or_structor (n : node) : bool :=
    match n with NConv _ _ | NStructor _ _ _ => true | _ => false end.
  Definition demangle_template_instantiation_name (b : nbb) : M handle :=
    expect_str (L "?$") InvalidTemplateInstantiationName ;;;
    outer <- get ;;
    (fun s => Ok (tt, set_names [] (set_fps [] s))) ;;;
    id <- demangle_unqualified_symbol_name NBB_Simple ;;
    tp <- demangle_template_parameter_list ;;
    modify KIdent id (set_template_params tp) ;;;
    (fun s => Ok (tt, set_names (s_names outer) (set_fps (s_fps outer) s))) ;;;
    if nbb_template b then
      n <- res_ KIdent id ;;
      if is_conv_or_structor n then fail InvalidTemplateInstantiationName
      else memorize_identifier id ;;; ret id
    else ret id.

  (** [demangle_variable_encoding], 436-470. *)
  Definition demangle_variable_encoding (sc : storage_class) : M handle :=
    ty <- k_type K QDrop ;;
    n <- res_ KType ty ;;
    match n with
    | NPtr _ _ _ _ =>
      q <- pointer_ext_qualifiers ;;
      modify KPtr ty (append_quals q) ;;;
      n <- res_ KPtr ty ;;
      match n with
      | NPtr _ _ cls pointee =>
        '(extra, _) <- demangle_qualifiers ;;
        (match cls with
         | Some _ => demangle_fully_qualified_type_name ;;; ret tt
         | None => ret tt
         end) ;;;
        modify KType pointee (append_quals extra)
      | _ => panic
      end
    | _ =>
      '(q, _) <- demangle_qualifiers ;;
      modify KType ty (set_quals q)
    end ;;;
    intern E (NVar None (Some sc) (Some ty)).

  (** The [this]-adjustment numbers of [demangle_function_encoding], 487-510. *)
  Definition this_adjust (fc : N) : M (option thisadj) :=
    if contains fc FC_StaticThisAdjust then
      z <- demangle_signed ;; ret (Some (mkTA (as_u32 z) 0 0 0))
    else if contains fc FC_VirtualThisAdjust then
      '(vbptr, vboff) <- (if contains fc FC_VirtualThisAdjustEx then
                            a <- demangle_signed ;; b <- demangle_signed ;; ret (as_i32 a, as_i32 b)
                          else ret (0, 0)%Z) ;;
      v <- demangle_signed ;;
      z <- demangle_signed ;;
      ret (Some (mkTA (as_u32 z) vbptr vboff (as_i32 v)))
    else ret None.

  (** [demangle_function_encoding], 472-527. *)
  Definition demangle_function_encoding : M handle :=
    j <- eat_str (L "$$J0") ;;
    s <- text ;;
    if is_empty s then fail InvalidFunctionEncoding
    else
      fc0 <- demangle_function_class ;;
      let fc := N.lor fc0 (if j then FC_ExternC else FC_None) in
      ttn <- this_adjust fc ;;
      fsn <- (if contains fc FC_NoParameterList then intern E (NFSig fsig_default)
              else demangle_function_type
                     (N.land fc (N.lor FC_Global FC_Static) =? 0)%N) ;;
      sig <- match ttn with
             | Some ta =>
               n <- res_ KFSig fsn ;;
               match n with NFSig f => intern E (NThunk f ta) | _ => panic end
             | None => ret fsn
             end ;;
      modify KSig sig (set_function_class fc) ;;;
      intern E (NFunc None sig).

  (** [demangle_encoded_symbol], 316-349. *)
  Definition set_target (t : option handle) (n : node) : node :=
    match n with NConv tp _ => NConv tp t | _ => n end.
  Definition sig_return (n : node) : option handle :=
    match n with NFSig f => fs_ret f | NThunk f _ => fs_ret f | _ => None end.
  Definition demangle_encoded_symbol (name : handle) : M handle :=
    s <- text ;;
    c <- ok_or (first_char s) InvalidEncodedSymbol ;;
    if one_of (L "01234") c then
      sc <- demangle_variable_storage_class ;;
      demangle_variable_encoding sc
    else
      fsn <- demangle_function_encoding ;;
      f <- res_ KFunc fsn ;;
      match f with
      | NFunc _ sig =>
        sn <- res_ KSig sig ;;
        o <- unqualified_identifier name ;;
        uqn <- ok_or o InvalidEncodedSymbol ;;
        modify KIdent uqn (set_target (sig_return sn)) ;;;
        ret fsn
      | _ => panic
      end.

  (** [demangle_declarator], 351-370. *)
  Definition demangle_declarator : M handle :=
    qn <- demangle_fully_qualified_symbol_name ;;
    sym <- demangle_encoded_symbol qn ;;
    modify KSym sym (set_sym_name qn) ;;;
    o <- unqualified_identifier qn ;;
    uqn <- ok_or o InvalidDeclarator ;;
    n <- res_ KIdent uqn ;;
    match n with
    | NConv _ None => fail InvalidDeclarator
    | _ => ret sym
    end.

  (** [demangle_special_table_symbol_node], 1550-1584. *)
  Definition demangle_special_table_symbol_node (k : sik) : M handle :=
    name <- match k with
            | SVftable => ret (L "`vftable'")
            | SVbtable => ret (L "`vbtable'")
            | SLocalVftable => ret (L "`local vftable'")
            | SRttiCompleteObjLocator => ret (L "`RTTI Complete Object Locator'")
            | _ => fail InvalidSpecialTableSymbolNode
            end ;;
    ni <- intern E (NNamed None name) ;;
    qn <- demangle_name_scope_chain ni ;;
    o <- eat_if (one_of (L "67")) ;;
    ok_or o InvalidSpecialTableSymbolNode ;;;
    '(quals, _) <- demangle_qualifiers ;;
    at_ <- eat_char (ch "@") ;;
    target <- (if at_ then ret None else t <- demangle_fully_qualified_type_name ;; ret (Some t)) ;;
    intern E (NSpecial qn target quals).

  (** [demangle_local_static_guard], 1586-1613. *)
  Definition set_scope_index (i : N) (n : node) : node :=
    match n with NLsg tp th _ => NLsg tp th i | _ => n end.
  Definition demangle_local_static_guard (is_thread : bool) : M handle :=
    lsgi <- intern E (NLsg None is_thread 0) ;;
    qn <- demangle_name_scope_chain lsgi ;;
    v4 <- eat_str (L "4IA") ;;
    visible <- (if v4 then ret false
                else v5 <- eat_char (ch "5") ;; if v5 then ret true else fail InvalidLocalStaticGuard) ;;
    s <- text ;;
    (if is_empty s then ret tt
     else n <- demangle_unsigned ;;
          i <- to_u32 n InvalidLocalStaticGuard ;;
          modify KLsg lsgi (set_scope_index i)) ;;;
    intern E (NLsgVar qn visible).

  (** [demangle_untyped_variable], 1615-1632. *)
  Definition demangle_untyped_variable (name : str) : M handle :=
    ni <- intern E (NNamed None name) ;;
    qn <- demangle_name_scope_chain ni ;;
    e <- eat_char (ch "8") ;;
    if e then intern E (NVar (Some (VQualified qn)) None None) else fail InvalidUntypedVariable.

  (** [demangle_rtti_base_class_descriptor_node], 1634-1668. *)
  Definition demangle_rtti_base_class_descriptor_node : M handle :=
    a <- demangle_unsigned ;; nv <- to_u32 a InvalidRttiBaseClassDescriptorNode ;;
    b <- demangle_signed ;; vbptr <- to_i32 b InvalidRttiBaseClassDescriptorNode ;;
    c <- demangle_unsigned ;; vbt <- to_u32 c InvalidRttiBaseClassDescriptorNode ;;
    d <- demangle_unsigned ;; fl <- to_u32 d InvalidRttiBaseClassDescriptorNode ;;
    r <- intern E (NRtti None nv vbptr vbt fl) ;;
    qn <- demangle_name_scope_chain r ;;
    expect_char (ch "8") InvalidRttiBaseClassDescriptorNode ;;;
    intern E (NVar (Some (VQualified qn)) None None).

  (** [demangle_init_fini_stub], 1670-1735. *)
  Definition set_func_name (h : handle) (n : node) : node :=
    match n with NFunc _ sig => NFunc (Some h) sig | _ => n end.
  Definition demangle_init_fini_stub (is_destructor : bool) : M handle :=
    known <- eat_char (ch "?") ;;
    sym <- demangle_declarator ;;
    n <- res_ KSym sym ;;
    match n with
    | NVar _ _ _ =>
      (if known : bool then expect_str (L "@@") InvalidInitFiniStub
       else expect_char (ch "@") InvalidInitFiniStub) ;;;
      fsn <- demangle_function_encoding ;;
      d <- intern E (NDyn None (DVariable sym) is_destructor) ;;
      name <- synthesize_from_id E d ;;
      modify KFunc fsn (set_func_name name) ;;;
      ret fsn
    | NFunc fname _ =>
      if known : bool then fail InvalidInitFiniStub
      else
        qn <- ok_or fname InvalidInitFiniStub ;;
        d <- intern E (NDyn None (DName qn) is_destructor) ;;
        name <- synthesize_from_id E d ;;
        modify KFunc sym (set_func_name name) ;;;
        ret sym
    | _ => fail InvalidInitFiniStub
    end.

  (** [demangle_vcall_thunk_node], 1895-1921. *)
  Definition set_vcall_offset (o : N) (n : node) : node :=
    match n with NVcall tp _ => NVcall tp o | _ => n end.
  Definition demangle_vcall_thunk_node : M handle :=
    v <- intern E (NVcall None 0) ;;
    qn <- demangle_name_scope_chain v ;;
    expect_str (L "$B") InvalidVcallThunkNode ;;;
    off <- demangle_unsigned ;;
    modify KVcall v (set_vcall_offset off) ;;;
    expect_char (ch "A") InvalidVcallThunkNode ;;;
    cc <- demangle_calling_convention ;;
    sig <- intern E (NThunk (mkFsig Q_None cc FC_NoParameterList None None false None false) ta_default) ;;
    intern E (NFunc (Some qn) sig).

  (** [demangle_string_literal], 1796-1893; [ob] is the buffer of line 1830. *)
  Fixpoint wide_loop (fuel : nat) (len : N) (trunc : bool) (ob : buf) : M buf :=
    match fuel with
    | O => nofuel
    | S fuel =>
      done <- eat_char (ch "@") ;;
      if done then ret ob
      else
        s <- text ;;
        if str_bytes s <? 2 then fail InvalidStringLiteral
        else
          w <- demangle_wchar_literal ;;
          ob <- run_w (w_if (negb (len =? 2)%N || trunc) (w_str E (escaped_char w))) ob ;;
          wide_loop fuel (len - 2)%N trunc ob
    end.
  (** 1853-1866, the loop over the bytes. *)
  Fixpoint narrow_loop (fuel : nat) (acc : list N) : M (list N) :=
    match fuel with
    | O => nofuel
    | S fuel =>
      done <- eat_char (ch "@") ;;
      if done then ret (rev acc)
      else
        s <- text ;;
        if is_empty s then fail InvalidStringLiteral
        else
          c <- demangle_char_literal ;;
          if 128 <=? length acc then fail InvalidStringLiteral
          else narrow_loop fuel (c :: acc)
    end.
  (** 1873-1881: [i] counts up to [num]; [count] iterations remain. *)
  Fixpoint narrow_out (bytes : list N) (sz num i count : nat) (trunc : bool) (ob : buf) : M buf :=
    match count with
    | O => ret ob
    | S count =>
      c <- ok_or (decode_multi_byte_char bytes i sz) InvalidStringLiteral ;;
      ob <- run_w (w_if ((i + 1 <? num) || trunc) (w_str E (escaped_char c))) ob ;;
      narrow_out bytes sz num (S i) count trunc ob
    end.
  Definition demangle_string_literal : M handle :=
    expect_str (L "@_") InvalidStringLiteral ;;;
    f <- next_char InvalidStringLiteral ;;
    is_wchar <- (if (f =? ch "1")%N then ret true
                 else if (f =? ch "0")%N then ret false else fail InvalidStringLiteral) ;;
    '(len, neg) <- demangle_number ;;
    if neg || (len <? (if is_wchar : bool then 2 else 1))%N then fail InvalidStringLiteral
    else
      s <- text ;;
      crc <- ok_or (find_char (ch "@") s) InvalidStringLiteral ;;
      o <- lift (try_consume_n_bytes (crc + 1)) ;;
      ok_or o InvalidStringLiteral ;;;
      s <- text ;;
      if is_empty s then fail InvalidStringLiteral
      else
        '(ob, k, trunc) <-
          (if is_wchar : bool then
             let trunc := (64 <? len)%N in
             ob <- wide_loop (S (length s)) len trunc (mkBuf [] 0) ;;
             ret (ob, CKWchar, trunc)
           else
             bytes <- narrow_loop (S (length s)) [] ;;
             let trunc := (N.of_nat (length bytes) <? len)%N in
             sz <- ok_or (guess_char_byte_size bytes len) InvalidStringLiteral ;;
             k <- (if sz =? 1 then ret CKChar
                   else if sz =? 2 then ret CKChar16
                   else if sz =? 4 then ret CKChar32
                   else fail InvalidStringLiteral) ;;
             let num := length bytes / sz in
             ob <- narrow_out bytes sz num 0 num trunc (mkBuf [] 0) ;;
             ret (ob, k, trunc)) ;;
        text <- take_text ob ;;
        intern E (NStrLit None text trunc k).

  (** [VariableSymbolNode::synthesize], /repo/src/nodes/derived.rs:1163-1180. *)
  Definition rtti_type_descriptor : M handle :=
    t <- k_type K QResult ;;
    expect_str (L "@8") InvalidSpecialIntrinsic ;;;
    s <- text ;;
    if is_empty s then
      qn <- synthesize_from_name E (L "`RTTI Type Descriptor'") ;;
      intern E (NVar (Some (VQualified qn)) None (Some t))
    else fail InvalidSpecialIntrinsic.

  (** [demangle_special_intrinsic], 1489-1548. *)
  Definition demangle_special_intrinsic : M (option handle) :=
    o <- consume_special special_table ;;
    match o with
    | None => ret None
    | Some k =>
      h <- match k with
           | SStringLiteralSymbol => demangle_string_literal
           | SVftable | SVbtable | SLocalVftable | SRttiCompleteObjLocator =>
             demangle_special_table_symbol_node k
           | SVcallThunk => demangle_vcall_thunk_node
           | SLocalStaticGuard => demangle_local_static_guard false
           | SLocalStaticThreadGuard => demangle_local_static_guard true
           | SRttiTypeDescriptor => rtti_type_descriptor
           | SRttiBaseClassArray => demangle_untyped_variable (L "`RTTI Base Class Array'")
           | SRttiClassHierarchyDescriptor => demangle_untyped_variable (L "`RTTI Class Hierarchy Descriptor'")
           | SRttiBaseClassDescriptor => demangle_rtti_base_class_descriptor_node
           | SDynamicInitializer => demangle_init_fini_stub false
           | SDynamicAtexitDestructor => demangle_init_fini_stub true
           | STypeof | SUdtReturning => fail InvalidSpecialIntrinsic
           end ;;
      ret (Some h)
    end.

  (** [demangle_md5_name], 372-413. *)
  Definition demangle_md5_name : M handle :=
    copy <- text ;;
    expect_str (L "??@") InvalidMd5Name ;;;
    s <- text ;;
    stop <- ok_or (find_char (ch "@") s) InvalidMd5Name ;;
    o <- lift (try_consume_n_bytes (stop + 1)) ;;
    ok_or o InvalidMd5Name ;;;
    r4 <- eat_str (L "??_R4@") ;;
    let stop := stop + 3 + (if r4 : bool then 6 else 0) in
    match split_bytes (stop + 1) copy with
    | None => panic
    | Some (md5, _) =>
      qn <- synthesize_from_name E md5 ;;
      intern E (NMd5 qn)
    end.

  (** [demangle_typeinfo_name], 415-428. *)
  Definition demangle_typeinfo_name : M handle :=
    expect_char (ch ".") InvalidTypeinfoName ;;;
    t <- k_type K QResult ;;
    s <- text ;;
    if is_empty s then intern E (NVar (Some VTypeDescriptor) None (Some t))
    else fail InvalidTypeinfoName.

  (** [do_parse], 294-314. *)
  Definition do_parse : M handle :=
    s <- text ;;
    if starts_with (L ".") s then demangle_typeinfo_name
    else if starts_with (L "??@") s then demangle_md5_name
    else
      expect_char (ch "?") (Io UnexpectedEof) ;;;
      o <- demangle_special_intrinsic ;;
      match o with
      | Some h => ret h
      | None => demangle_declarator
      end.
End Parser.

(** The recursive parser on fuel: [knot n] may nest at most [n] calls of the three functions. *)
(** 294-314 and the functions it calls. *)
Fixpoint knot_of (E : env) (fuel : nat) : knot :=
  match fuel with
  | O => mkKnot nofuel (fun _ => nofuel) (fun _ => nofuel)
  | S fuel =>
    let K := knot_of E fuel in
    mkKnot (do_parse E K) (demangle_type E K) (demangle_template_instantiation_name E K)
  end.

(** [Demangler::new], 249-261. *)
Definition init_st (s : str) : st := mkSt (ms_new s) [] [] [].

(** [do_parse] on a fresh demangler with a given recursion budget. *)
(** /repo/src/demangler.rs:264-314. *)
Definition parse_with (E : env) (fuel : nat) (s : str) : res (handle * st) :=
  k_parse (knot_of E fuel) (init_st s).
(** The budget used by the API: one more than the number of characters. *)
(** /repo/src/demangler.rs:264-314. *)
Definition parse (E : env) (s : str) : res (handle * st) := parse_with E (S (length s)) s.
