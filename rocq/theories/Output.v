(** The output side: [BufWriter] (/repo/src/demangler.rs:102-193) and the [output*]
    functions of /repo/src/nodes. *)
From Verif Require Export MString.

(** A byte buffer: contents and capacity of the underlying [Vec<u8>]. *)
Record buf := mkBuf { b_bytes : list N; b_cap : N }.

(** A writer action.  The buffer is threaded through errors too, because [parse_into]
    gives the allocation back to the caller. *)
(** The type of every [output*] function, /repo/src/nodes/mod.rs:124-149. *)
Definition W := buf -> buf * res unit.

(** [Ok(())], an error, a panic and the end of the fuel of the model, as in /repo/src/nodes/mod.rs:115-122. *)
Definition w_ret : W := fun b => (b, Ok tt).
Definition w_err (e : error) : W := fun b => (b, Err e).
Definition w_panic : W := fun b => (b, Panic).
Definition w_fuel : W := fun b => (b, Fuel).
(** Sequencing with [?]. *)
(** As in /repo/src/nodes/mod.rs:128-138. *)
Definition w_seq (m k : W) : W := fun b =>
  match m b with
  | (b', Ok tt) => k b'
  | (b', r) => (b', r)
  end.
Notation "m >> k" := (w_seq m k) (at level 61, right associativity).
(** [if c { .. }] and [if let Some(..)], as in /repo/src/nodes/derived.rs:149-198. *)
Definition w_if (c : bool) (m : W) : W := if c then m else w_ret.
Definition w_opt {A} (o : option A) (f : A -> W) : W := match o with Some a => f a | None => w_ret end.

(** [Vec] growth: when the capacity does not suffice the new capacity is at least what is
    needed, otherwise up to the allocation policy. *)
(** [Vec::write], /repo/src/demangler.rs:159. *)
Definition grow (E : env) (cap needed : N) : N :=
  if (needed <=? cap)%N then cap else N.max needed (p_wish (e_grow E) cap needed).

(** The sizes of the pieces of a text of [n] bytes; they add up to [n]. *)
(** [fmt::Write] hands texts over in pieces, /repo/src/demangler.rs:155-172. *)
Fixpoint clip (cut : list nat) (n : nat) : list nat :=
  match cut with
  | [] => [n]
  | k :: cut => Nat.min k n :: clip cut (n - Nat.min k n)
  end.

(** [write!(ob, ..)]: [write_all] of each piece through [BufWriter::write],
    /repo/src/demangler.rs:155-172; [write_all] does not call [write] for an empty piece. *)
Fixpoint w_pieces (E : env) (ps : list nat) (bs : list N) : W := fun b =>
  match ps with
  | [] => (b, Ok tt)
  | O :: ps => w_pieces E ps bs b
  | k :: ps =>
    let len := N.of_nat (length (b_bytes b) + k) in
    if (len <? e_out E)%N
    then w_pieces E ps (skipn k bs) (mkBuf (b_bytes b ++ firstn k bs) (grow E (b_cap b) len))
    else (b, Err (Io OutOfMemory))
  end.

(** The same in closed form ([w_str_pieces] below): what the pieces that fit leave behind. *)
(** /repo/src/demangler.rs:155-172. *)
Fixpoint part_len (E : env) (ps : list nat) (len : nat) : nat :=
  match ps with
  | [] => 0
  | O :: ps => part_len E ps len
  | k :: ps => if (N.of_nat (len + k) <? e_out E)%N then k + part_len E ps (len + k) else 0
  end.
Fixpoint part_cap (E : env) (ps : list nat) (len : nat) (cap : N) : N :=
  match ps with
  | [] => cap
  | O :: ps => part_cap E ps len cap
  | k :: ps => if (N.of_nat (len + k) <? e_out E)%N then part_cap E ps (len + k) (grow E cap (N.of_nat (len + k))) else cap
  end.
(** /repo/src/demangler.rs:155-172. *)
Definition w_str (E : env) (s : str) : W := fun b =>
  match s with
  | [] => (b, Ok tt)
  | _ =>
    let bs := utf8 s in
    let len := N.of_nat (length (b_bytes b) + length bs) in
    let ps := clip (p_cut (e_grow E) (b_bytes b) s) (length bs) in
    let cap := part_cap E ps (length (b_bytes b)) (b_cap b) in
    if (len <? e_out E)%N
    then (mkBuf (b_bytes b ++ bs) cap, Ok tt)
    else (mkBuf (b_bytes b ++ firstn (part_len E ps (length (b_bytes b))) bs) cap, Err (Io OutOfMemory))
  end.

(** [Buffer::last_char], /repo/src/demangler.rs:121-126. *)
Definition last_char (b : buf) : option N :=
  match from_utf8 (b_bytes b) with
  | Some s => match rev s with c :: _ => Some c | [] => None end
  | None => None
  end.

(** [char::is_alphanumeric]: exact on ASCII, an arbitrary predicate elsewhere. *)
(** Used at /repo/src/nodes/mod.rs:117. *)
Definition is_alphanumeric (E : env) (c : N) : bool :=
  if (c <? 128)%N then is_ascii_alnum c else e_alnum E c.

(** [output_space_if_necessary], /repo/src/nodes/mod.rs:115-122. *)
Definition space_if_necessary (E : env) : W := fun b =>
  match last_char b with
  | Some c => if is_alphanumeric E c || (c =? ch ">")%N then w_str E (L " ") b else w_ret b
  | None => w_ret b
  end.

(** ** Qualifiers (/repo/src/nodes/enums.rs:36-136) *)
Definition q_is_const q := contains q Q_Const.
Definition q_is_volatile q := contains q Q_Volatile.
Definition q_is_unaligned q := contains q Q_Unaligned.
Definition q_is_restrict q := contains q Q_Restrict.

(** [output_single_qualifier] for each of the three masks, 54-71. *)
Definition single_const (E : env) : W := w_str E (L "const").
Definition single_volatile (E : env) : W := w_str E (L "volatile").
Definition single_restrict (E : env) : W :=
  if no_ms_keywords E then w_ret
  else if no_leading_underscores E then w_str E (L "restrict") else w_str E (L "__restrict").

(** [output_if_present], 118-135, with the continuation receiving the new [needs_space]. *)
Definition if_present (E : env) (present : bool) (single : W) (needs_space : bool) (k : bool -> W) : W :=
  if present then w_if needs_space (w_str E (L " ")) >> single >> k true
  else k needs_space.

(** [Qualifiers::output], 95-116. *)
Definition out_quals (E : env) (q : N) (space_before space_after : bool) : W :=
  if (q =? Q_None)%N then w_ret
  else fun b0 =>
    (if_present E (q_is_const q) (single_const E) space_before (fun sb =>
     if_present E (q_is_volatile q) (single_volatile E) sb (fun sb =>
     if_present E (q_is_restrict q) (single_restrict E) sb (fun _ => w_ret))) >>
     (fun b1 => w_if (space_after && (length (b_bytes b0) <? length (b_bytes b1)))
                     (w_str E (L " ")) b1)) b0.

(** [CallingConv::output], /repo/src/nodes/enums.rs:175-208. *)
Definition cc_name (bare : bool) (c : call_conv) : str :=
  match c with
  | Cdecl => if bare then L "cdecl" else L "__cdecl"
  | Fastcall => if bare then L "fastcall" else L "__fastcall"
  | Pascal => if bare then L "pascal" else L "__pascal"
  | Stdcall => if bare then L "stdcall" else L "__stdcall"
  | Thiscall => if bare then L "thiscall" else L "__thiscall"
  | Eabi => if bare then L "eabi" else L "__eabi"
  | Vectorcall => if bare then L "vectorcall" else L "__vectorcall"
  | Clrcall => if bare then L "clrcall" else L "__clrcall"
  | Swift => L "__attribute__((__swiftcall__)) "
  | SwiftAsync => L "__attribute__((__swiftasynccall__)) "
  end.
Definition out_cc (E : env) (c : call_conv) : W :=
  space_if_necessary E >> w_str E (cc_name (no_leading_underscores E) c).

(** /repo/src/nodes/derived.rs:83-111. *)
Definition prim_name (k : prim_kind) : str :=
  match k with
  | Void => L "void" | Bool_ => L "bool" | Char => L "char" | Schar => L "signed char"
  | Uchar => L "unsigned char" | Char8 => L "char8_t" | Char16 => L "char16_t"
  | Char32 => L "char32_t" | Short => L "short" | Ushort => L "unsigned short" | Int => L "int"
  | Uint => L "unsigned int" | Long => L "long" | Ulong => L "unsigned long"
  | Int64 => L "__int64" | Uint64 => L "unsigned __int64" | Wchar => L "wchar_t"
  | Float => L "float" | Double => L "double" | Ldouble => L "long double"
  | Nullptr => L "std::nullptr_t" | Auto => L "auto" | DecltypeAuto => L "decltype(auto)"
  end.

(** /repo/src/nodes/derived.rs:527-533. *)
Definition tag_name (t : tag_kind) : str :=
  match t with TKClass => L "class" | TKStruct => L "struct" | TKUnion => L "union" | TKEnum => L "enum" end.

(** /repo/src/nodes/derived.rs:768-845. *)
Definition ifk_name (o : ifk) : str :=
  match o with
  | IFNew => L "operator new" | IFDelete => L "operator delete" | IFAssign => L "operator="
  | IFRightShift => L "operator>>" | IFLeftShift => L "operator<<" | IFLogicalNot => L "operator!"
  | IFEquals => L "operator==" | IFNotEquals => L "operator!=" | IFArraySubscript => L "operator[]"
  | IFPointer => L "operator->" | IFIncrement => L "operator++" | IFDecrement => L "operator--"
  | IFMinus => L "operator-" | IFPlus => L "operator+" | IFDereference => L "operator*"
  | IFBitwiseAnd => L "operator&" | IFMemberPointer => L "operator->*" | IFDivide => L "operator/"
  | IFModulus => L "operator%" | IFLessThan => L "operator<" | IFLessThanEqual => L "operator<="
  | IFGreaterThan => L "operator>" | IFGreaterThanEqual => L "operator>=" | IFComma => L "operator,"
  | IFParens => L "operator()" | IFBitwiseNot => L "operator~" | IFBitwiseXor => L "operator^"
  | IFBitwiseOr => L "operator|" | IFLogicalAnd => L "operator&&" | IFLogicalOr => L "operator||"
  | IFTimesEqual => L "operator*=" | IFPlusEqual => L "operator+=" | IFMinusEqual => L "operator-="
  | IFDivEqual => L "operator/=" | IFModEqual => L "operator%=" | IFRshEqual => L "operator>>="
  | IFLshEqual => L "operator<<=" | IFBitwiseAndEqual => L "operator&="
  | IFBitwiseOrEqual => L "operator|=" | IFBitwiseXorEqual => L "operator^="
  | IFVbaseDtor => L "`vbase dtor'" | IFVecDelDtor => L "`vector deleting dtor'"
  | IFDefaultCtorClosure => L "`default constructor closure'"
  | IFScalarDelDtor => L "`scalar deleting dtor'" | IFVecCtorIter => L "`vector ctor iterator'"
  | IFVecDtorIter => L "`vector dtor iterator'"
  | IFVecVbaseCtorIter => L "`vector vbase ctor iterator'"
  | IFVdispMap => L "`virtual displacement map'" | IFEHVecCtorIter => L "`eh vector ctor iterator'"
  | IFEHVecDtorIter => L "`eh vector dtor iterator'"
  | IFEHVecVbaseCtorIter => L "`eh vector vbase ctor iterator'"
  | IFCopyCtorClosure => L "`copy ctor closure'"
  | IFLocalVftableCtorClosure => L "`local vftable ctor closure'"
  | IFArrayNew => L "operator new[]" | IFArrayDelete => L "operator delete[]"
  | IFManVectorCtorIter => L "`managed vector ctor iterator'"
  | IFManVectorDtorIter => L "`managed vector dtor iterator'"
  | IFEHVectorCopyCtorIter => L "`EH vector copy ctor iterator'"
  | IFEHVectorVbaseCopyCtorIter => L "`EH vector vbase copy ctor iterator'"
  | IFVectorCopyCtorIter => L "`vector copy ctor iterator'"
  | IFVectorVbaseCopyCtorIter => L "`vector vbase copy constructor iterator'"
  | IFManVectorVbaseCopyCtorIter => L "`managed vector vbase copy constructor iterator'"
  | IFCoAwait => L "operator co_await" | IFSpaceship => L "operator<=>"
  end.

(** Which of the three entry points of a type node is called: [output], [output_pre],
    [output_post]. *)
(** /repo/src/nodes/mod.rs:124-149. *)
Inductive omode := OFull | OPre | OPost.

Section Out.
  Variable E : env.
  Variable sg : store.
  (** The recursive call [child.resolve(cache).output*(cache, ob, flags)]. *)
  Variable rec : omode -> kind -> handle -> W.

  (** [write!(ob, ..)], as in /repo/src/nodes/derived.rs:158. *)
  Definition put (s : str) : W := w_str E s.

  (** [FunctionSignatureNode::do_output_pre], /repo/src/nodes/derived.rs:149-198. *)
  Definition fsig_pre (f : fsig) (is_function_ptr : bool) : W :=
    w_if (negb (no_access_specifier E) && negb (name_only E))
      (w_if (contains (fs_class f) FC_Public) (put (L "public: ")) >>
       w_if (contains (fs_class f) FC_Protected) (put (L "protected: ")) >>
       w_if (contains (fs_class f) FC_Private) (put (L "private: "))) >>
    w_if (negb (no_member_type E) && negb (name_only E))
      (w_if (negb (contains (fs_class f) FC_Global) && contains (fs_class f) FC_Static) (put (L "static ")) >>
       w_if (contains (fs_class f) FC_Virtual) (put (L "virtual ")) >>
       w_if (contains (fs_class f) FC_ExternC) (put (L "extern ""C"" "))) >>
    w_if (negb (no_return_type E) && (is_function_ptr || negb (name_only E)))
      (w_opt (fs_ret f) (fun h => rec OPre KType h >> put (L " "))) >>
    w_if (negb is_function_ptr && negb (no_calling_convention E) && negb (no_ms_keywords E) && negb (name_only E))
      (w_opt (fs_cc f) (out_cc E)).

  (** [FunctionSignatureNode::do_output_post], /repo/src/nodes/derived.rs:200-268. *)
  Definition fsig_post (f : fsig) (is_function_ptr : bool) : W :=
    w_if ((is_function_ptr || negb (name_only E)) && negb (contains (fs_class f) FC_NoParameterList))
      (put (L "(") >>
       match fs_params f with
       | Some h => rec OFull KNodes h
       | None => put (L "void")
       end >>
       w_if (fs_variadic f)
         ((fun b => match last_char b with
                    | Some c => w_if (negb (c =? ch "(")%N) (put (L ", ")) b
                    | None => w_ret b
                    end) >>
          put (L "...")) >>
       put (L ")")) >>
    w_if (negb (no_this_type E) && negb (name_only E))
      (w_if (q_is_const (fs_quals f)) (put (L " const")) >>
       w_if (q_is_volatile (fs_quals f)) (put (L " volatile")) >>
       w_if (negb (no_ms_keywords E))
         (w_if (q_is_restrict (fs_quals f))
            (if no_leading_underscores E then put (L " restrict") else put (L " __restrict")) >>
          w_if (q_is_unaligned (fs_quals f))
            (if no_leading_underscores E then put (L " unaligned") else put (L " __unaligned")))) >>
    w_if (fs_noexcept f) (put (L " noexcept")) >>
    w_if (negb (no_this_type E) && negb (name_only E))
      (w_opt (fs_ref f) (fun r => match r with
                                  | RQReference => put (L " &")
                                  | RQRValueReference => put (L " &&")
                                  end)) >>
    w_if (negb (no_return_type E) && negb (name_only E))
      (w_opt (fs_ret f) (fun h => rec OPost KType h)).

  (** [ThunkSignatureNode::do_output_pre], /repo/src/nodes/derived.rs:323-335. *)
  Definition thunk_pre (f : fsig) (is_function_ptr : bool) : W :=
    w_if (negb (name_only E)) (put (L "[thunk]: ")) >> fsig_pre f is_function_ptr.

  (** [ThunkSignatureNode::do_output_post], /repo/src/nodes/derived.rs:337-363. *)
  Definition thunk_post (f : fsig) (ta : thisadj) (is_function_ptr : bool) : W :=
    (if contains (fs_class f) FC_StaticThisAdjust then
       put (L "`adjustor{" ++ dec_N (ta_static ta) ++ L "}'")
     else if contains (fs_class f) FC_VirtualThisAdjust then
       if contains (fs_class f) FC_VirtualThisAdjustEx then
         put (L "`vtordispex{" ++ dec_Z (ta_vbptr ta) ++ L ", " ++ dec_Z (ta_vboffset ta) ++ L ", "
                ++ dec_Z (ta_vtordisp ta) ++ L ", " ++ dec_N (ta_static ta) ++ L "}'")
       else
         put (L "`vtordisp{" ++ dec_Z (ta_vtordisp ta) ++ L ", " ++ dec_N (ta_static ta) ++ L "}'")
     else w_ret) >>
    fsig_post f is_function_ptr.

  (** [output_pre]/[output_post] of a signature node with the pointer flag (used by
      [PointerTypeNode], /repo/src/nodes/derived.rs:430-439 and 490-497). *)
  Definition sig_pre (n : node) (p : bool) : W :=
    match n with NFSig f => fsig_pre f p | NThunk f _ => thunk_pre f p | _ => w_panic end.
  Definition sig_post (n : node) (p : bool) : W :=
    match n with NFSig f => fsig_post f p | NThunk f ta => thunk_post f ta p | _ => w_panic end.
  Definition sig_cc (n : node) : option call_conv :=
    match n with NFSig f => fs_cc f | NThunk f _ => fs_cc f | _ => None end.
  Definition is_arr (n : node) : bool := match n with NArr _ _ _ => true | _ => false end.

  (** [PointerTypeNode::output_pre], /repo/src/nodes/derived.rs:423-479. *)
  Definition ptr_pre (q : N) (a : option affinity) (cls : option handle) (pointee : handle) : W :=
    match resolve sg KType pointee with
    | None => w_panic
    | Some n =>
      (if is_sig n then sig_pre n true else rec OPre KType pointee) >>
      space_if_necessary E >>
      w_if (negb (no_ms_keywords E) && q_is_unaligned q)
        (if no_leading_underscores E then put (L "unaligned ") else put (L "__unaligned ")) >>
      (if is_arr n then put (L "(")
       else if is_sig n then
         put (L "(") >>
         w_if (negb (no_calling_convention E) && negb (no_ms_keywords E))
           (w_opt (sig_cc n) (fun c => out_cc E c >> put (L " ")))
       else w_ret) >>
      w_opt cls (fun h => rec OFull KQual h >> put (L "::")) >>
      match a with
      | None => w_panic
      | Some APointer => put (L "*")
      | Some AReference => put (L "&")
      | Some ARValueReference => put (L "&&")
      end >>
      out_quals E q false false
    end.

  (** [PointerTypeNode::output_post], /repo/src/nodes/derived.rs:481-503. *)
  Definition ptr_post (pointee : handle) : W :=
    match resolve sg KType pointee with
    | None => w_panic
    | Some n =>
      w_if (is_arr n || is_sig n) (put (L ")")) >>
      (if is_sig n then sig_post n true else rec OPost KType pointee)
    end.

  (** [IntegerLiteralNode::output], /repo/src/nodes/derived.rs:1067-1071. *)
  Definition int_out (v : N) (neg : bool) : W := put ((if neg then L "-" else []) ++ dec_N v).

  (** [ArrayTypeNode::output_one_dimension], /repo/src/nodes/derived.rs:555-571. *)
  Definition one_dim (h : handle) : W :=
    match resolve sg KAny h with
    | Some (NInt v neg) => if (v =? 0)%N then w_ret else int_out v neg
    | _ => w_panic
    end.
  Fixpoint rest_dims (l : list handle) : W :=
    match l with
    | [] => w_ret
    | h :: l => put (L "][") >> one_dim h >> rest_dims l
    end.
  (** [output_dimensions_impl], /repo/src/nodes/derived.rs:573-589. *)
  Definition out_dims (dims : handle) : W :=
    match resolve sg KNodes dims with
    | Some (NNodes l) =>
      match l with
      | [] => w_ret
      | h :: l => one_dim h >> rest_dims l
      end
    | _ => w_panic
    end.

  (** [TemplateParameters::output], /repo/src/nodes/derived.rs:647-654. *)
  Definition out_tp (tp : option handle) : W :=
    w_opt tp (fun h => put (L "<") >> rec OFull KNodes h >> put (L ">")).

  (** [NodeArrayNode::do_output], /repo/src/nodes/derived.rs:949-966. *)
  Fixpoint rest_nodes (sep : str) (l : list handle) : W :=
    match l with
    | [] => w_ret
    | h :: l => put sep >> rec OFull KAny h >> rest_nodes sep l
    end.
  Definition out_nodes (sep : str) (l : list handle) : W :=
    match l with
    | [] => w_ret
    | h :: l => rec OFull KAny h >> rest_nodes sep l
    end.

  (** [output_pre] of the type nodes (dispatch: /repo/src/nodes/intermediate.rs:363-405). *)
  Definition out_pre (n : node) : W :=
    match n with
    | NPrim q k => put (prim_name k) >> out_quals E q true false          (* derived.rs:83-112 *)
    | NFSig f => fsig_pre f false                                         (* 294-296 *)
    | NThunk f _ => thunk_pre f false                                     (* 387-389 *)
    | NPtr q a cls p => ptr_pre q a cls p
    | NTag q qn t =>                                                      (* 520-536 *)
      w_if (negb (no_tag_specifier E) && negb (name_only E)) (put (tag_name t ++ L " ")) >>
      rec OFull KQual qn >> out_quals E q true false
    | NArr q _ el => rec OPre KType el >> out_quals E q true false        (* 599-604 *)
    | NCustom _ id => rec OFull KIdent id                                 (* 634-636 *)
    | _ => w_panic
    end.

  (** [output_post] of the type nodes. *)
  (** Dispatch: /repo/src/nodes/intermediate.rs:391-405. *)
  Definition out_post (n : node) : W :=
    match n with
    | NPrim _ _ | NTag _ _ _ | NCustom _ _ => w_ret                       (* derived.rs:113-115, 538-540, 638-640 *)
    | NFSig f => fsig_post f false                                        (* 298-305 *)
    | NThunk f ta => thunk_post f ta false                                (* 391-398 *)
    | NPtr _ _ _ p => ptr_post p
    | NArr _ dims el =>                                                   (* 606-618 *)
      put (L "[") >> out_dims dims >> put (L "]") >> rec OPost KType el
    | _ => w_panic
    end.

  (** [VariableSymbolNode::output], /repo/src/nodes/derived.rs:1182-1228. *)
  Definition var_out (name : option var_name) (sc : option storage_class) (ty : option handle) : W :=
    let '(access, is_static) :=
      match sc with
      | Some PrivateStatic => (Some (L "private"), true)
      | Some PublicStatic => (Some (L "public"), true)
      | Some ProtectedStatic => (Some (L "protected"), true)
      | _ => (None, false)
      end in
    w_if (negb (no_access_specifier E) && negb (name_only E))
      (w_opt access (fun a => put (a ++ L ": "))) >>
    w_if (negb (no_member_type E) && negb (name_only E) && is_static) (put (L "static ")) >>
    match name with
    | None => w_panic
    | Some (VQualified h) =>
      let ty := if negb (no_variable_type E) && negb (name_only E) then ty else None in
      w_opt ty (fun t => rec OPre KType t >> space_if_necessary E) >>
      rec OFull KQual h >>
      w_opt ty (fun t => rec OPost KType t)
    | Some VTypeDescriptor =>
      w_opt ty (fun t => rec OFull KType t) >>
      w_if (negb (name_only E))
        (space_if_necessary E >> put (L "`RTTI Type Descriptor Name'"))
    end.

  (** [TemplateParameterReferenceNode::output], /repo/src/nodes/derived.rs:1034-1057. *)
  Definition is_ptr_aff (a : option affinity) : bool := match a with Some APointer => true | _ => false end.
  Definition tpr_out (sym : option handle) (offs : list Z) (a : option affinity) : W :=
    (match offs with
     | _ :: _ => put (L "{")
     | [] => w_if (is_ptr_aff a) (put (L "&"))
     end) >>
    w_opt sym (fun h => rec OFull KSym h >> w_if (negb (match offs with [] => true | _ => false end)) (put (L ", "))) >>
    match offs with
    | [] => w_ret
    | z :: zs =>
      put (dec_Z z) >>
      fold_right (fun z k => put (L ", " ++ dec_Z z) >> k) (put (L "}")) zs
    end.

  (** [EncodedStringLiteralNode::output], /repo/src/nodes/derived.rs:1129-1139. *)
  Definition str_prefix (k : char_kind) : str :=
    match k with CKWchar => L "L""" | CKChar => L """" | CKChar16 => L "u""" | CKChar32 => L "U""" end.
  Definition strlit_out (s : str) (trunc : bool) (k : char_kind) : W :=
    put (str_prefix k ++ s ++ L """" ++ (if trunc then L "..." else [])).

  (** [WriteableNode::output] of every node. *)
  (** Dispatch: /repo/src/nodes/intermediate.rs:643-656 and 774-784. *)
  Definition out_full (n : node) : W :=
    match n with
    | NVcall _ off =>                                                     (* derived.rs:678-685 *)
      if name_only E then put (L "`vcall'{" ++ dec_N off ++ L "}")
      else put (L "`vcall'{" ++ dec_N off ++ L ", {flat}}")
    | NDyn _ id dtor =>                                                   (* 714-735 *)
      (if dtor then put (L "`dynamic atexit destructor for ") else put (L "`dynamic initializer for ")) >>
      match id with
      | DVariable h => put (L "`") >> rec OFull KVar h >> put (L "''")
      | DName h => put (L "'") >> rec OFull KQual h >> put (L "''")
      end
    | NNamed tp name => put name >> out_tp tp                             (* 745-748 *)
    | NIntrinsic tp op => w_opt op (fun o => put (ifk_name o)) >> out_tp tp (* 768-845 *)
    | NLitOp tp name => put (L "operator """"" ++ name) >> out_tp tp      (* 855-858 *)
    | NLsg _ thread idx =>                                                (* 869-881 *)
      (if thread then put (L "`local static thread guard'") else put (L "`local static guard'")) >>
      w_if (0 <? idx)%N (put (L "{" ++ dec_N idx ++ L "}"))
    | NConv tp target =>                                                  (* 891-901 *)
      put (L "operator") >> out_tp tp >> put (L " ") >> w_opt target (fun h => rec OFull KType h)
    | NStructor tp cls dtor =>                                            (* 912-920 *)
      w_if dtor (put (L "~")) >> w_opt cls (fun h => rec OFull KIdent h) >> out_tp tp
    | NRtti _ nv vbptr vbt fl =>                                          (* 933-940 *)
      put (L "`RTTI Base Class Descriptor at (" ++ dec_N nv ++ L ", " ++ dec_Z vbptr ++ L ", "
             ++ dec_N vbt ++ L ", " ++ dec_N fl ++ L ")'")
    | NNodes l => out_nodes (L ", ") l                                    (* 968-970 *)
    | NQual c =>                                                          (* 1017-1021 *)
      match resolve sg KNodes c with
      | Some (NNodes l) => out_nodes (L "::") l
      | _ => w_panic
      end
    | NTpr sym offs a _ => tpr_out sym offs a
    | NInt v neg => int_out v neg
    | NMd5 h => rec OFull KQual h                                         (* 1080-1082 *)
    | NSpecial name target q =>                                           (* 1093-1104 *)
      w_if (negb (name_only E)) (out_quals E q false true) >>
      rec OFull KQual name >>
      w_opt target (fun h => put (L "{for `") >> rec OFull KQual h >> put (L "'}"))
    | NLsgVar name _ => rec OFull KQual name                              (* 1115-1117 *)
    | NStrLit _ s trunc k => strlit_out s trunc k
    | NVar name sc ty => var_out name sc ty
    | NFunc name sig =>                                                   (* 1238-1245 *)
      rec OPre KSig sig >> space_if_necessary E >>
      w_opt name (fun h => rec OFull KQual h) >>
      rec OPost KSig sig
    | _ => out_pre n >> out_post n   (* type nodes: output_pair, /repo/src/nodes/mod.rs:128-138 *)
    end.

  Definition out_node (m : omode) (n : node) : W :=
    match m with OFull => out_full n | OPre => out_pre n | OPost => out_post n end.
End Out.

(** Tying the knot on fuel. *)
(** [resolve] and dispatch, /repo/src/cache.rs:350-360 and /repo/src/nodes/mod.rs:124-149. *)
Fixpoint out (fuel : nat) (E : env) (sg : store) (m : omode) (k : kind) (h : handle) : W :=
  match fuel with
  | O => w_fuel
  | S fuel =>
    match resolve sg k h with
    | None => w_panic
    | Some n => out_node E sg (out fuel E sg) m n
    end
  end.

(** [handle.resolve(cache).output(cache, ob, flags)]. *)
(** As at /repo/src/demangler.rs:264-292. *)
Definition output (E : env) (sg : store) (k : kind) (h : handle) : W :=
  out (S (length sg)) E sg OFull k h.
