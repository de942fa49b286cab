(** Flags, enumerations, node structures and typed handles. *)
From Verif Require Export Base.

(** ** Flags (/repo/src/lib.rs:204-332) *)
Definition NO_CALLING_CONVENTION : N := 0x1.
Definition NO_TAG_SPECIFIER : N := 0x2.
Definition NO_ACCESS_SPECIFIER : N := 0x4.
Definition NO_MEMBER_TYPE : N := 0x8.
Definition NO_RETURN_TYPE : N := 0x10.
Definition NO_VARIABLE_TYPE : N := 0x20.
Definition NO_THISTYPE : N := 0x40.
Definition NO_LEADING_UNDERSCORES : N := 0x80.
Definition NO_MS_KEYWORDS : N := 0x100.
Definition NAME_ONLY : N := 0x200.

(** What the standard library leaves open about writing (all arbitrary): [p_cut old s] are
    the sizes in bytes of the pieces in which [write!] hands the text [s] to the writer when
    [old] has been written (the rest is the last piece); [p_wish cap needed] is the
    allocator's wish for a new capacity. *)
(** Behind [write!] and [Vec], as used in /repo/src/demangler.rs:155-172. *)
Record policy := { p_cut : list N -> str -> list nat; p_wish : N -> N -> N }.
(** Every text in one piece. *)
Definition whole (wish : N -> N -> N) : policy := {| p_cut := fun _ _ => []; p_wish := wish |}.

(** The environment of a run: the flag word; [char::is_alphanumeric] on non-ASCII
    characters (left arbitrary); the writing policy (left arbitrary); and the two resource
    limits.  The code has fixed limits ([code_limits], below); they are fields so that
    theorems can compare a run with a run under other limits. *)
(** The flags are a field of [Demangler], /repo/src/demangler.rs:240-246. *)
Record env := { e_flags : N; e_alnum : N -> bool; e_grow : policy; e_nodes : N; e_out : N }.

(** [1 << 11], /repo/src/cache.rs:321, and [1 << 20], /repo/src/demangler.rs:158. *)
Definition max_nodes : N := 2048.
Definition out_limit : N := 1048576.

(** The environment with the limits of the code; the API functions of [Api] run in it. *)
(** /repo/src/cache.rs:321 and /repo/src/demangler.rs:158. *)
Definition code_limits (E : env) : env :=
  {| e_flags := e_flags E; e_alnum := e_alnum E; e_grow := e_grow E;
     e_nodes := max_nodes; e_out := out_limit |}.

(** The ten accessors of /repo/src/lib.rs:334-384. *)
Definition no_calling_convention E := contains (e_flags E) NO_CALLING_CONVENTION.
Definition no_tag_specifier E := contains (e_flags E) NO_TAG_SPECIFIER.
Definition no_access_specifier E := contains (e_flags E) NO_ACCESS_SPECIFIER.
Definition no_member_type E := contains (e_flags E) NO_MEMBER_TYPE.
Definition no_return_type E := contains (e_flags E) NO_RETURN_TYPE.
Definition no_variable_type E := contains (e_flags E) NO_VARIABLE_TYPE.
Definition no_this_type E := contains (e_flags E) NO_THISTYPE.
Definition no_leading_underscores E := contains (e_flags E) NO_LEADING_UNDERSCORES.
Definition no_ms_keywords E := contains (e_flags E) NO_MS_KEYWORDS.
Definition name_only E := contains (e_flags E) NAME_ONLY.

(** ** Qualifiers (/repo/src/nodes/enums.rs:21-34) *)
Definition Q_None : N := 0.
Definition Q_Const : N := 0x1.
Definition Q_Volatile : N := 0x2.
Definition Q_Far : N := 0x4.
Definition Q_Huge : N := 0x8.
Definition Q_Unaligned : N := 0x10.
Definition Q_Restrict : N := 0x20.
Definition Q_Pointer64 : N := 0x40.

(** ** Function classes (/repo/src/nodes/enums.rs:333-351) *)
Definition FC_None : N := 0.
Definition FC_Public : N := 0x1.
Definition FC_Protected : N := 0x2.
Definition FC_Private : N := 0x4.
Definition FC_Global : N := 0x8.
Definition FC_Static : N := 0x10.
Definition FC_Virtual : N := 0x20.
Definition FC_Far : N := 0x40.
Definition FC_ExternC : N := 0x80.
Definition FC_NoParameterList : N := 0x100.
Definition FC_VirtualThisAdjust : N := 0x200.
Definition FC_VirtualThisAdjustEx : N := 0x400.
Definition FC_StaticThisAdjust : N := 0x800.

(** ** Plain enumerations (/repo/src/nodes/enums.rs) *)
Inductive storage_class := PrivateStatic | ProtectedStatic | PublicStatic | Global | FunctionLocalStatic. (* 138-145 *)
Inductive affinity := APointer | AReference | ARValueReference.                                            (* 147-152 *)
Inductive ref_qual := RQReference | RQRValueReference.                                                     (* 154-158 *)
Inductive call_conv := Cdecl | Pascal | Thiscall | Stdcall | Fastcall | Clrcall | Eabi | Vectorcall
                     | Swift | SwiftAsync.                                                                 (* 160-173 *)
Inductive prim_kind := Void | Bool_ | Char | Schar | Uchar | Char8 | Char16 | Char32 | Short | Ushort | Int
  | Uint | Long | Ulong | Int64 | Uint64 | Wchar | Float | Double | Ldouble | Nullptr | Auto
  | DecltypeAuto.                                                                                          (* 210-235 *)
Inductive char_kind := CKChar | CKChar16 | CKChar32 | CKWchar.                                             (* 237-243 *)
Inductive tag_kind := TKClass | TKStruct | TKUnion | TKEnum.                                               (* 410-416 *)

(** [IntrinsicFunctionKind], /repo/src/nodes/enums.rs:245-311. *)
Inductive ifk :=
| IFNew | IFDelete | IFAssign | IFRightShift | IFLeftShift | IFLogicalNot | IFEquals | IFNotEquals
| IFArraySubscript | IFPointer | IFDereference | IFIncrement | IFDecrement | IFMinus | IFPlus
| IFBitwiseAnd | IFMemberPointer | IFDivide | IFModulus | IFLessThan | IFLessThanEqual
| IFGreaterThan | IFGreaterThanEqual | IFComma | IFParens | IFBitwiseNot | IFBitwiseXor
| IFBitwiseOr | IFLogicalAnd | IFLogicalOr | IFTimesEqual | IFPlusEqual | IFMinusEqual
| IFDivEqual | IFModEqual | IFRshEqual | IFLshEqual | IFBitwiseAndEqual | IFBitwiseOrEqual
| IFBitwiseXorEqual | IFVbaseDtor | IFVecDelDtor | IFDefaultCtorClosure | IFScalarDelDtor
| IFVecCtorIter | IFVecDtorIter | IFVecVbaseCtorIter | IFVdispMap | IFEHVecCtorIter
| IFEHVecDtorIter | IFEHVecVbaseCtorIter | IFCopyCtorClosure | IFLocalVftableCtorClosure
| IFArrayNew | IFArrayDelete | IFManVectorCtorIter | IFManVectorDtorIter | IFEHVectorCopyCtorIter
| IFEHVectorVbaseCopyCtorIter | IFVectorCopyCtorIter | IFVectorVbaseCopyCtorIter
| IFManVectorVbaseCopyCtorIter | IFCoAwait | IFSpaceship.

(** [SpecialIntrinsicKind], /repo/src/nodes/enums.rs:313-331. *)
Inductive sik := SVftable | SVbtable | STypeof | SVcallThunk | SLocalStaticGuard | SStringLiteralSymbol
  | SUdtReturning | SDynamicInitializer | SDynamicAtexitDestructor | SRttiTypeDescriptor
  | SRttiBaseClassDescriptor | SRttiBaseClassArray | SRttiClassHierarchyDescriptor
  | SRttiCompleteObjLocator | SLocalVftable | SLocalStaticThreadGuard.

(** ** Nodes.  A handle is an index into the node store (/repo/src/cache.rs:335-349);
    its Rust type parameter is the [kind] checked when it is resolved. *)
Definition handle := nat.

(** [FunctionSignatureNode], /repo/src/nodes/derived.rs:118-146 (the never-read
    [affinity] field is dropped). *)
Record fsig := mkFsig {
  fs_quals : N;
  fs_cc : option call_conv;
  fs_class : N;
  fs_ref : option ref_qual;
  fs_ret : option handle;
  fs_variadic : bool;
  fs_params : option handle;
  fs_noexcept : bool
}.

(** [FunctionSignatureNode::default], /repo/src/nodes/derived.rs:271-285. *)
Definition fsig_default : fsig := mkFsig Q_None None FC_Global None None false None false.

(** [ThisAdjustor], /repo/src/nodes/derived.rs:308-314: [u32] and three [i32]. *)
Record thisadj := mkTA { ta_static : N; ta_vbptr : Z; ta_vboffset : Z; ta_vtordisp : Z }.
Definition ta_default : thisadj := mkTA 0 0 0 0.

(** [DynamicStructorIdentifier], /repo/src/nodes/derived.rs:688-692. *)
Inductive dyn_ident := DVariable (h : handle) | DName (h : handle).
(** [VariableSymbolName], /repo/src/nodes/derived.rs:1142-1146. *)
Inductive var_name := VQualified (h : handle) | VTypeDescriptor.

(** [NodeStorage], /repo/src/cache.rs:66-98, with the structs of /repo/src/nodes/derived.rs. *)
Inductive node :=
| NPrim (q : N) (k : prim_kind)                                              (* 60-64 *)
| NFSig (f : fsig)                                                           (* 118-146 *)
| NThunk (f : fsig) (ta : thisadj)                                           (* 316-320 *)
| NPtr (q : N) (a : option affinity) (cls : option handle) (pointee : handle)(* 401-414 *)
| NTag (q : N) (qn : handle) (t : tag_kind)                                  (* 506-511 *)
| NArr (q : N) (dims : handle) (el : handle)                                 (* 543-552 *)
| NCustom (q : N) (id : handle)                                              (* 621-625 *)
| NVcall (tp : option handle) (off : N)                                      (* 671-675 *)
| NDyn (tp : option handle) (id : dyn_ident) (dtor : bool)                   (* 706-711 *)
| NNamed (tp : option handle) (name : str)                                   (* 738-742 *)
| NIntrinsic (tp : option handle) (op : option ifk)                          (* 751-755 *)
| NLitOp (tp : option handle) (name : str)                                   (* 848-852 *)
| NLsg (tp : option handle) (thread : bool) (idx : N)                        (* 861-866 *)
| NConv (tp : option handle) (target : option handle)                        (* 884-888 *)
| NStructor (tp : option handle) (cls : option handle) (dtor : bool)         (* 904-909 *)
| NRtti (tp : option handle) (nv : N) (vbptr : Z) (vbt : N) (fl : N)         (* 923-930 *)
| NNodes (l : list handle)                                                   (* 943-946 *)
| NQual (components : handle)                                                (* 973-976 *)
| NTpr (sym : option handle) (offs : list Z) (a : option affinity) (mp : bool) (* 1024-1031 *)
| NInt (v : N) (neg : bool)                                                  (* 1060-1064 *)
| NMd5 (name : handle)                                                       (* 1074-1077 *)
| NSpecial (name : handle) (target : option handle) (q : N)                  (* 1085-1090 *)
| NLsgVar (name : handle) (visible : bool)                                   (* 1107-1112 *)
| NStrLit (name : option handle) (s : str) (trunc : bool) (k : char_kind)    (* 1120-1126 *)
| NVar (name : option var_name) (sc : option storage_class) (ty : option handle) (* 1154-1159 *)
| NFunc (name : option handle) (sig : handle).                               (* 1231-1235 *)

(** The Rust type parameter of a [NodeHandle]: the set of variants that [try_unwrap]
    accepts (/repo/src/cache.rs:147-296). *)
Inductive kind := KAny | KType | KSig | KIdent | KSym | KNodes | KQual | KNamed | KVar | KFunc
  | KFSig | KPtr | KStructor | KLsg | KVcall.

Definition is_type (n : node) : bool :=
  match n with NPrim _ _ | NFSig _ | NThunk _ _ | NPtr _ _ _ _ | NTag _ _ _ | NArr _ _ _ | NCustom _ _ => true | _ => false end.
Definition is_sig (n : node) : bool := match n with NFSig _ | NThunk _ _ => true | _ => false end.
Definition is_ident (n : node) : bool :=
  match n with
  | NVcall _ _ | NDyn _ _ _ | NNamed _ _ | NIntrinsic _ _ | NLitOp _ _ | NLsg _ _ _ | NConv _ _
  | NStructor _ _ _ | NRtti _ _ _ _ _ => true | _ => false end.
Definition is_sym (n : node) : bool :=
  match n with
  | NMd5 _ | NSpecial _ _ _ | NLsgVar _ _ | NStrLit _ _ _ _ | NVar _ _ _ | NFunc _ _ => true | _ => false end.

(** [UnwrapStorage], /repo/src/cache.rs:139-300. *)
Definition hkind (k : kind) (n : node) : bool :=
  match k with
  | KAny => true
  | KType => is_type n
  | KSig => is_sig n
  | KIdent => is_ident n
  | KSym => is_sym n
  | KNodes => match n with NNodes _ => true | _ => false end
  | KQual => match n with NQual _ => true | _ => false end
  | KNamed => match n with NNamed _ _ => true | _ => false end
  | KVar => match n with NVar _ _ _ => true | _ => false end
  | KFunc => match n with NFunc _ _ => true | _ => false end
  | KFSig => match n with NFSig _ => true | _ => false end
  | KPtr => match n with NPtr _ _ _ _ => true | _ => false end
  | KStructor => match n with NStructor _ _ _ => true | _ => false end
  | KLsg => match n with NLsg _ _ _ => true | _ => false end
  | KVcall => match n with NVcall _ _ => true | _ => false end
  end.

(** [NodeCache], /repo/src/cache.rs:302-304: the nodes in the order they were interned; the arena behind them is not modelled. *)
Definition store := list node.

(** [NodeHandle::resolve], /repo/src/cache.rs:350-360: [None] stands for the panic
    of the index operation or of [expect]. *)
Definition resolve (sg : store) (k : kind) (h : handle) : option node :=
  match nth_error sg h with
  | Some n => if hkind k n then Some n else None
  | None => None
  end.

(** In-place update of one node ([resolve_mut], /repo/src/cache.rs:362-372). *)
Fixpoint upd (sg : store) (h : handle) (n : node) : store :=
  match sg, h with
  | [], _ => []
  | _ :: sg, O => n :: sg
  | m :: sg, S h => m :: upd sg h n
  end.
