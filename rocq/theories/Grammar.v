(** Specification: which mangled text stands for which C++ entity.

    The relations below are the decorated-name grammar of the Microsoft ABI as this library
    understands it, written from the side of the encoder: tables map entities to codes, and
    every relation threads the two back-reference tables.  Nothing here mentions the parser,
    nodes or handles. *)
From Verif Require Import Syntax Show Number Literal.

(** ** Back-reference tables: remembered names, and remembered parameter types. *)
Definition tab := (list str * list ty)%type.
Definition empty_tab : tab := ([], []).
(** At most ten names, each once. *)
Definition remember (x : str) (G : tab) : tab :=
  if (10 <=? length (fst G)) || existsb (str_eqb x) (fst G) then G else (fst G ++ [x], snd G).
(** At most ten parameter types. *)
Definition remember_param (t : ty) (G : tab) : tab :=
  if length (snd G) <? 10 then (fst G, snd G ++ [t]) else G.
Definition digit_char (i : nat) : N := (ch "0" + N.of_nat i)%N.

(** ** Codes *)
(** An identifier as it appears in mangled text. *)
Definition ident (x : str) : Prop :=
  ustr x /\ ~ In (ch "@") x /\
  match x with c :: _ => is_digit c = false /\ c <> ch "?" | [] => False end.

(** [const] and [volatile]: four consecutive letters, from ['A'] or (members) ['Q']. *)
Definition cvq (c v : bool) : N := N.lor (if c then Q_Const else Q_None) (if v then Q_Volatile else Q_None).
Definition cv_code (member c v : bool) : N :=
  ((if member then ch "Q" else ch "A") + (if c then 1 else 0) + (if v then 2 else 0))%N.
(** Pointers: ['P'] plus [const] and [volatile]; references ['A'] and ["$$Q"]. *)
Inductive pointer_code : str -> N -> affinity -> Prop :=
| pk_pointer (c v : bool) : pointer_code [(ch "P" + (if c then 1 else 0) + (if v then 2 else 0))%N] (cvq c v) APointer
| pk_reference : pointer_code (L "A") Q_None AReference
| pk_rvalue : pointer_code (L "$$Q") Q_None ARValueReference.
(** Extended qualifiers: [__ptr64], [__restrict], [__unaligned]. *)
Definition ext_code (p r u : bool) : str := opt p (L "E") ++ opt r (L "I") ++ opt u (L "F").
Definition extq (p r u : bool) : N :=
  N.lor (if p then Q_Pointer64 else Q_None) (N.lor (if r then Q_Restrict else Q_None) (if u then Q_Unaligned else Q_None)).

Definition prim_code (k : prim_kind) : str :=
  match k with
  | Void => L "X" | Bool_ => L "_N" | Char => L "D" | Schar => L "C" | Uchar => L "E" | Char8 => L "_Q"
  | Char16 => L "_S" | Char32 => L "_U" | Short => L "F" | Ushort => L "G" | Int => L "H" | Uint => L "I"
  | Long => L "J" | Ulong => L "K" | Int64 => L "_J" | Uint64 => L "_K" | Wchar => L "_W" | Float => L "M"
  | Double => L "N" | Ldouble => L "O" | Nullptr => L "$$T" | Auto => L "_P" | DecltypeAuto => L "_T"
  end.
Definition tag_code (t : tag_kind) : str :=
  match t with TKUnion => L "T" | TKStruct => L "U" | TKClass => L "V" | TKEnum => L "W4" end.
(** Calling conventions, plain and exported. *)
Definition cc_letters (c : call_conv) : str :=
  match c with
  | Cdecl => L "AB" | Pascal => L "CD" | Thiscall => L "EF" | Stdcall => L "GH" | Fastcall => L "IJ"
  | Clrcall => L "MN" | Eabi => L "OP" | Vectorcall => L "Q" | Swift => L "S" | SwiftAsync => L "W"
  end.
(** Any other character stands for "no calling convention". *)
Inductive cc_code : N -> option call_conv -> Prop :=
| cc_known l c : In l (cc_letters c) -> cc_code l (Some c)
| cc_other l : (forall c, ~ In l (cc_letters c)) -> cc_code l None.
Inductive ref_code : str -> option ref_qual -> Prop :=
| rf_none : ref_code [] None
| rf_lvalue : ref_code (L "G") (Some RQReference)
| rf_rvalue : ref_code (L "H") (Some RQRValueReference).
Definition throw_code (noexcept : bool) : str := if noexcept then L "_E" else L "Z".

Definition operators : list (str * str) := map (fun p => (L (fst p), L (snd p))) [
  ("2", "operator new"); ("3", "operator delete"); ("4", "operator="); ("5", "operator>>");
  ("6", "operator<<"); ("7", "operator!"); ("8", "operator=="); ("9", "operator!=");
  ("A", "operator[]"); ("C", "operator->"); ("D", "operator*"); ("E", "operator++");
  ("F", "operator--"); ("G", "operator-"); ("H", "operator+"); ("I", "operator&");
  ("J", "operator->*"); ("K", "operator/"); ("L", "operator%"); ("M", "operator<");
  ("N", "operator<="); ("O", "operator>"); ("P", "operator>="); ("Q", "operator,");
  ("R", "operator()"); ("S", "operator~"); ("T", "operator^"); ("U", "operator|");
  ("V", "operator&&"); ("W", "operator||"); ("X", "operator*="); ("Y", "operator+=");
  ("Z", "operator-="); ("_0", "operator/="); ("_1", "operator%="); ("_2", "operator>>=");
  ("_3", "operator<<="); ("_4", "operator&="); ("_5", "operator|="); ("_6", "operator^=");
  ("_D", "`vbase dtor'"); ("_E", "`vector deleting dtor'"); ("_F", "`default constructor closure'");
  ("_G", "`scalar deleting dtor'"); ("_H", "`vector ctor iterator'"); ("_I", "`vector dtor iterator'");
  ("_J", "`vector vbase ctor iterator'"); ("_K", "`virtual displacement map'");
  ("_L", "`eh vector ctor iterator'"); ("_M", "`eh vector dtor iterator'");
  ("_N", "`eh vector vbase ctor iterator'"); ("_O", "`copy ctor closure'");
  ("_T", "`local vftable ctor closure'"); ("_U", "operator new[]"); ("_V", "operator delete[]");
  ("__A", "`managed vector ctor iterator'"); ("__B", "`managed vector dtor iterator'");
  ("__C", "`EH vector copy ctor iterator'"); ("__D", "`EH vector vbase copy ctor iterator'");
  ("__G", "`vector copy ctor iterator'"); ("__H", "`vector vbase copy constructor iterator'");
  ("__I", "`managed vector vbase copy constructor iterator'"); ("__L", "operator co_await");
  ("__M", "operator<=>")]%string.

(** Codes the tables of operators leave without a name; they stand for the empty name.  Some of
    them introduce special symbols ([reserved_codes], and ["_R"] followed by ['0'] to ['4']) and
    can stand for an operator only where no special symbol is expected. *)
Definition reserved_codes : list str := map L ["_7"; "_8"; "_9"; "_A"; "_B"; "_C"; "_P"; "_S"; "__E"; "__F"; "__J"]%string.
Definition free_codes : list str := map L
  ["_Q"; "_W"; "_X"; "_Y"; "_Z"; "__0"; "__1"; "__2"; "__3"; "__4"; "__5"; "__6"; "__7"; "__8"; "__9";
   "__N"; "__O"; "__P"; "__Q"; "__R"; "__S"; "__T"; "__U"; "__V"; "__W"; "__X"; "__Y"; "__Z"]%string.
Definition unnamed_codes : list str := L "_R" :: reserved_codes ++ free_codes.

(** A number of a local scope: one digit, or letters that do not start with ['A'], closed by ['@']. *)
Definition scope_number (t : str) (v : N) : Prop := num_text t v /\ match t with c :: _ => c <> ch "A" | [] => False end.
(** A signed number, below [2^63] in magnitude. *)
Definition signed_number (t : str) (z : Z) : Prop :=
  exists v neg, signed_text t v neg /\ (v < 2 ^ 63)%N /\ z = (if neg : bool then - Z.of_N v else Z.of_N v)%Z.
Definition mod32 (z : Z) : N := Z.to_N (z mod 2 ^ 32).
Definition wrap32 (z : Z) : Z := ((z + 2 ^ 31) mod 2 ^ 32 - 2 ^ 31)%Z.

(** ** Unqualified identifiers of symbols *)
Inductive idk :=
| IText (x : str)
| IStructor (dtor : bool) (targs : str)
| IConv (targs : str).
Definition with_targs (i : idk) (a : str) : idk :=
  match i with IText x => IText (x ++ a) | IStructor d x => IStructor d (x ++ a) | IConv x => IConv (x ++ a) end.
(** Not back-references and not templates. *)
Inductive ubase : tab -> str -> idk -> tab -> Prop :=
| ub_name G x : ident x -> ubase G (x ++ L "@") (IText x) (remember x G)
| ub_operator G c x : In (c, x) operators -> ubase G (L "?" ++ c) (IText x) G
| ub_literal G x : ustr x -> x <> [] -> ~ In (ch "@") x ->
    ubase G (L "?__K" ++ x ++ L "@") (IText (L "operator """"" ++ x)) G
| ub_ctor G : ubase G (L "?0") (IStructor false []) G
| ub_dtor G : ubase G (L "?1") (IStructor true []) G
| ub_conv G : ubase G (L "?B") (IConv []) G.

(** The text of an identifier, given its scopes (outermost first) and, for a conversion
    function, the return type. *)
Inductive id_text (E : env) : idk -> list str -> option ty -> str -> Prop :=
| it_text x ss r : id_text E (IText x) ss r x
| it_structor d a ss c r : id_text E (IStructor d a) (ss ++ [c]) r (opt d (L "~") ++ c ++ a)
| it_conv a ss r : id_text E (IConv a) ss (Some r) (L "operator" ++ a ++ L " " ++ show E r).

(** ** Storage and function classes *)
Inductive storage_code : N -> option access -> Prop :=
| sc_private : storage_code (ch "0") (Some Private)
| sc_protected : storage_code (ch "1") (Some Protected)
| sc_public : storage_code (ch "2") (Some Public)
| sc_global : storage_code (ch "3") None
| sc_local : storage_code (ch "4") None.

Definition access_index (a : access) : N := match a with Private => 0 | Protected => 1 | Public => 2 end.
(** The letters ['A'].. come in groups of eight for the three accesses: plain, static, virtual,
    this-adjusting, each near and far; ['Y'] and ['Z'] are non-members.  (A private
    this-adjusting thunk is not called virtual.) *)
Definition class_letter (a : access) (kind : N) (far : bool) : N :=
  (ch "A" + 8 * access_index a + 2 * kind + (if far then 1 else 0))%N.
Inductive class_code (x : bool) : str -> fn_class -> adjustment -> bool -> Prop :=
| cl_global (far : bool) : class_code x [(ch "Y" + (if far then 1 else 0))%N] (FnClass None false false x) NoAdjustment false
| cl_plain a (far : bool) : class_code x [class_letter a 0 far] (FnClass (Some a) false false x) NoAdjustment true
| cl_static a (far : bool) : class_code x [class_letter a 1 far] (FnClass (Some a) true false x) NoAdjustment false
| cl_virtual a (far : bool) : class_code x [class_letter a 2 far] (FnClass (Some a) false true x) NoAdjustment true
| cl_adjustor a (far : bool) t z : signed_number t z ->
    class_code x (class_letter a 3 far :: t)
      (FnClass (Some a) false (match a with Private => false | _ => true end) x) (Adjustor (mod32 z)) true
| cl_vtordisp a (far : bool) t1 v t2 z : signed_number t1 v -> signed_number t2 z ->
    class_code x (L "$" ++ [(ch "0" + 2 * access_index a + (if far then 1 else 0))%N] ++ t1 ++ t2)
      (FnClass (Some a) false true x) (Vtordisp (wrap32 v) (mod32 z)) true
| cl_vtordispex a (far : bool) t1 p t2 o t3 v t4 z :
    signed_number t1 p -> signed_number t2 o -> signed_number t3 v -> signed_number t4 z ->
    class_code x (L "$R" ++ [(ch "0" + 2 * access_index a + (if far then 1 else 0))%N] ++ t1 ++ t2 ++ t3 ++ t4)
      (FnClass (Some a) false true x) (Vtordispex (wrap32 p) (wrap32 o) (wrap32 v) (mod32 z)) true.

(** Qualifiers of [this]. *)
Inductive this_code : bool -> str -> N -> option ref_qual -> Prop :=
| th_none : this_code false [] Q_None None
| th_quals p r u rt rq m c v : ref_code rt rq ->
    this_code true (ext_code p r u ++ rt ++ [cv_code m c v]) (N.lor (extq p r u) (cvq c v)) rq.

(** Array dimensions. *)
Inductive dims : str -> list N -> Prop :=
| di_nil : dims [] []
| di_cons t d t' ds : num_text t d -> dims t' ds -> dims (t ++ t') (d :: ds).

(** The text does not start with the given character. *)
Definition first_is_not (a : ascii) (t : str) : Prop := forall r, t <> ch a :: r.

(** A name that starts with ['?'], without that character; in a chain of scopes it must not look
    like an anonymous namespace or the number of a local scope. *)
Definition odd_name (x : str) : Prop := ustr x /\ ~ In (ch "@") x /\ first_is_not "$"%char x.
Definition odd_scope (x following : str) : Prop :=
  odd_name x /\ first_is_not "A"%char x /\ (forall d r, is_digit d = true -> x <> d :: ch "?" :: r) /\
  (first_is_not "?"%char following \/ ~ exists v, scope_number (x ++ L "@") v).

(** Some signed numbers. *)
Inductive offsets : str -> list Z -> Prop :=
| of_nil : offsets [] []
| of_cons t z t' zs : signed_number t z -> offsets t' zs -> offsets (t ++ t') (z :: zs).
(** Member pointers and data member pointers as template arguments: marker and number of offsets. *)
Definition member_codes : list (str * nat) := [(L "H", 1); (L "I", 2); (L "J", 3)].
Definition data_codes : list (str * nat) := [(L "F", 2); (L "G", 3)].
Definition braces (xs : list str) : str := L "{" ++ join (L ", ") xs ++ L "}".

(** Separators the demangler skips in template argument lists. *)
Definition targ_separators : list str := [L "$S"; L "$$V"; L "$$$V"; L "$$Z"].

(** The demangler renders some texts in the middle of parsing (template instantiations as scopes
    or types, local scopes, identifiers of template arguments); such a text has to fit below the
    limit on output. *)
Definition fits (E : env) (x : str) : Prop := (N.of_nat (length (utf8 x)) < e_out E)%N.

(** ** MD5 names: any key without ['@'].  A locator suffix directly behind one belongs to it. *)
Definition md5_text (h : str) : str := L "??@" ++ h ++ L "@".
Definition md5_key (h : str) : Prop := ustr h /\ ~ In (ch "@") h.
Definition locator : str := L "??_R4@".
Definition no_locator (t : str) : Prop := forall r, t <> locator ++ r.

(** ** Special symbols *)
Definition table_codes : list (str * str) := map (fun p => (L (fst p), L (snd p))) [
  ("_7", "`vftable'"); ("_8", "`vbtable'"); ("_S", "`local vftable'"); ("_R4", "`RTTI Complete Object Locator'")]%string.
Definition rtti_codes : list (str * str) := map (fun p => (L (fst p), L (snd p))) [
  ("_R2", "`RTTI Base Class Array'"); ("_R3", "`RTTI Class Hierarchy Descriptor'")]%string.
Definition guard_code (thread : bool) : str := if thread then L "??__J" else L "??_B".
Definition dynamic_code (dtor : bool) : str := if dtor then L "??__F" else L "??__E".

Section Grammar.
  Variable E : env.
  (** The innermost scope comes first in the text; lists of components are outermost first. *)
  Inductive piece : tab -> str -> str -> tab -> Prop :=
  | pc_ref G i x : i < 10 -> nth_error (fst G) i = Some x -> piece G [digit_char i] x G
  | pc_name G x : ident x -> piece G (x ++ L "@") x (remember x G)
  | pc_anonymous G k : ustr k -> ~ In (ch "@") k ->
      piece G (L "?A" ++ k ++ L "@") (L "`anonymous namespace'") (remember k G)
  | pc_template G t x : template t x -> piece G t x (remember x G)
  | pc_local G n v t x id G' : fits E (L "`" ++ x ++ L "'::`" ++ dec_N v ++ L "'") -> scope_number n v -> symbol G t x id G' ->
      piece G (L "?" ++ n ++ L "?" ++ t) (L "`" ++ x ++ L "'::`" ++ dec_N v ++ L "'") G'
  | pc_local_literal G n v t x : fits E (L "`" ++ x ++ L "'::`" ++ dec_N v ++ L "'") -> scope_number n v -> literal (e_out E) t x ->
      piece G (L "?" ++ n ++ L "?" ++ t) (L "`" ++ x ++ L "'::`" ++ dec_N v ++ L "'") G

  with chain : tab -> str -> list str -> tab -> Prop :=
  | ch_end G : chain G (L "@") [] G
  | ch_cons G t x G1 t' xs G2 : piece G t x G1 -> chain G1 t' xs G2 -> chain G (t ++ t') (xs ++ [x]) G2
  | ch_odd G x t' xs G2 : odd_scope x t' -> chain (remember (L "?" ++ x) G) t' xs G2 ->
      chain G (L "?" ++ x ++ L "@" ++ t') (xs ++ [L "?" ++ x]) G2
  | ch_local_md5 G n v h t' xs G2 : fits E (L "`" ++ md5_text h ++ L "'::`" ++ dec_N v ++ L "'") -> scope_number n v -> md5_key h ->
      no_locator t' -> chain G t' xs G2 ->
      chain G ((L "?" ++ n ++ L "?" ++ md5_text h) ++ t') (xs ++ [L "`" ++ md5_text h ++ L "'::`" ++ dec_N v ++ L "'"]) G2

  (** The unqualified name of a type. *)
  with tname : tab -> str -> str -> tab -> Prop :=
  | tn_ref G i x : i < 10 -> nth_error (fst G) i = Some x -> tname G [digit_char i] x G
  | tn_name G x : ident x -> tname G (x ++ L "@") x (remember x G)
  | tn_odd G x : odd_name x -> tname G (L "?" ++ x ++ L "@") (L "?" ++ x) (remember (L "?" ++ x) G)
  | tn_template G t x : template t x -> tname G t x (remember x G)

  with qname : tab -> str -> list str -> tab -> Prop :=
  | qn_intro G t x G1 t' xs G2 : tname G t x G1 -> chain G1 t' xs G2 -> qname G (t ++ t') (xs ++ [x]) G2

  (** A template instantiation starts from empty tables and leaves nothing behind. *)
  with template : str -> str -> Prop :=
  | tp_intro b y G1 a xs G2 : fits E (y ++ L "<" ++ join (L ", ") xs ++ L ">") -> tbase b (IText y) G1 -> targs G1 a xs G2 ->
      template (L "?$" ++ b ++ a) (y ++ L "<" ++ join (L ", ") xs ++ L ">")

  (** What is instantiated, read with empty tables.  (The arguments of an instantiated
      instantiation are dropped.) *)
  with tbase : str -> idk -> tab -> Prop :=
  | tb_base b i G1 : ubase empty_tab b i G1 -> tbase b i G1
  | tb_unnamed c : In c unnamed_codes -> tbase (L "?" ++ c) (IText []) empty_tab
  | tb_again b i G1 a xs G2 : tbase b i G1 -> targs G1 a xs G2 -> tbase (L "?$" ++ b ++ a) i empty_tab

  with targs : tab -> str -> list str -> tab -> Prop :=
  | ta_end G : targs G (L "@") [] G
  | ta_sep G s t xs G' : In s targ_separators -> targs G t xs G' -> targs G (s ++ t) xs G'
  | ta_cons G t x G1 t' xs G2 : targ G t x G1 -> targs G1 t' xs G2 -> targs G (t ++ t') (x :: xs) G2

  (** ["$1"] without a symbol. *)
  | ta_nothing G t' xs G2 : first_is_not "?"%char t' -> targs G t' xs G2 -> targs G (L "$1" ++ t') (L "&" :: xs) G2
  | ta_auto_nothing G tt y G1 t' xs G2 : body G tt y G1 -> first_is_not "?"%char t' -> targs G1 t' xs G2 ->
      targs G (L "$M" ++ tt ++ L "1" ++ t') (L "&" :: xs) G2
  (** MD5 names as symbols of arguments. *)
  | ta_md5 G h t' xs G2 : fits E (md5_text h) -> md5_key h -> no_locator t' -> targs (remember (md5_text h) G) t' xs G2 ->
      targs G (L "$1" ++ md5_text h ++ t') ((L "&" ++ md5_text h) :: xs) G2
  | ta_auto_md5 G tt y G1 h t' xs G2 : fits E (md5_text h) -> body G tt y G1 -> md5_key h -> no_locator t' -> targs (remember (md5_text h) G1) t' xs G2 ->
      targs G (L "$M" ++ tt ++ L "1" ++ md5_text h ++ t') ((L "&" ++ md5_text h) :: xs) G2
  | ta_reference_md5 G h t' xs G2 : md5_key h -> no_locator t' -> targs G t' xs G2 ->
      targs G (L "$E" ++ md5_text h ++ t') (md5_text h :: xs) G2
  | ta_auto_reference_md5 G tt y G1 h t' xs G2 : body G tt y G1 -> md5_key h -> no_locator t' -> targs G1 t' xs G2 ->
      targs G (L "$M" ++ tt ++ L "$E" ++ md5_text h ++ t') (md5_text h :: xs) G2

  with targ : tab -> str -> str -> tab -> Prop :=
  | tg_type G t y G' : body G t y G' -> targ G t (show E y) G'
  | tg_typeb G t y G' : body G t y G' -> targ G (L "$$B" ++ t) (show E y) G'
  | tg_typec m G t y G' : mtype m G t y G' -> targ G (L "$$C" ++ t) (show E y) G'
  | tg_alias G t n G' : qname G t n G' -> targ G (L "$$Y" ++ t) (qualified n) G'
  | tg_int G t v neg : signed_text t v neg -> targ G (L "$0" ++ t) (opt neg (L "-") ++ dec_N v) G
  | tg_auto_int G tt y G1 t v neg : body G tt y G1 -> signed_text t v neg ->
      targ G (L "$M" ++ tt ++ L "0" ++ t) (opt neg (L "-") ++ dec_N v) G1
  | tg_pointer G t x id G' : fits E id -> symbol G t x id G' -> targ G (L "$1" ++ t) (L "&" ++ x) (remember id G')
  | tg_auto_pointer G tt y G1 t x id G' : fits E id -> body G tt y G1 -> symbol G1 t x id G' ->
      targ G (L "$M" ++ tt ++ L "1" ++ t) (L "&" ++ x) (remember id G')
  | tg_reference G t x id G' : symbol G t x id G' -> targ G (L "$E" ++ t) x G'
  | tg_member1 G t x id G' t1 z1 : fits E id -> symbol G t x id G' -> signed_number t1 z1 ->
      targ G (L "$H" ++ t ++ t1) (L "{" ++ x ++ L ", " ++ dec_Z z1 ++ L "}") (remember id G')
  | tg_member2 G t x id G' t1 z1 t2 z2 : fits E id -> symbol G t x id G' -> signed_number t1 z1 -> signed_number t2 z2 ->
      targ G (L "$I" ++ t ++ t1 ++ t2) (L "{" ++ x ++ L ", " ++ dec_Z z1 ++ L ", " ++ dec_Z z2 ++ L "}") (remember id G')
  | tg_member3 G t x id G' t1 z1 t2 z2 t3 z3 : fits E id -> symbol G t x id G' ->
      signed_number t1 z1 -> signed_number t2 z2 -> signed_number t3 z3 ->
      targ G (L "$J" ++ t ++ t1 ++ t2 ++ t3)
        (L "{" ++ x ++ L ", " ++ dec_Z z1 ++ L ", " ++ dec_Z z2 ++ L ", " ++ dec_Z z3 ++ L "}") (remember id G')
  | tg_data2 G t1 z1 t2 z2 : signed_number t1 z1 -> signed_number t2 z2 ->
      targ G (L "$F" ++ t1 ++ t2) (L "{" ++ dec_Z z1 ++ L ", " ++ dec_Z z2 ++ L "}") G
  | tg_data3 G t1 z1 t2 z2 t3 z3 : signed_number t1 z1 -> signed_number t2 z2 -> signed_number t3 z3 ->
      targ G (L "$G" ++ t1 ++ t2 ++ t3)
        (L "{" ++ dec_Z z1 ++ L ", " ++ dec_Z z2 ++ L ", " ++ dec_Z z3 ++ L "}") G
  | tg_bare_member G c n t zs : In (c, n) member_codes -> length zs = n -> offsets t zs -> first_is_not "?"%char t ->
      targ G (L "$" ++ c ++ t) (braces (map dec_Z zs)) G
  | tg_member_md5 G c n h t zs : fits E (md5_text h) -> md5_key h -> In (c, n) member_codes -> length zs = n -> offsets t zs ->
      targ G (L "$" ++ c ++ md5_text h ++ t) (braces (md5_text h :: map dec_Z zs)) (remember (md5_text h) G)
  | tg_literal G t x : literal (e_out E) t x -> targ G (L "$E" ++ t) x G
  | tg_auto G tt y G1 t x G' : body G tt y G1 -> auto_arg G1 t x G' -> targ G (L "$M" ++ tt ++ t) x G'

  (** The other arguments that may follow an automatic type. *)
  with auto_arg : tab -> str -> str -> tab -> Prop :=
  | aa_type G t y G' : body G t y G' -> (forall c r, In c (L "01HIJFG") -> t <> c :: r) -> auto_arg G t (show E y) G'
  | aa_typeb G t y G' : body G t y G' -> auto_arg G (L "$$B" ++ t) (show E y) G'
  | aa_typec m G t y G' : mtype m G t y G' -> auto_arg G (L "$$C" ++ t) (show E y) G'
  | aa_alias G t n G' : qname G t n G' -> auto_arg G (L "$$Y" ++ t) (qualified n) G'
  | aa_reference G t x id G' : symbol G t x id G' -> auto_arg G (L "$E" ++ t) x G'
  | aa_member G c n t x id G' t1 zs : fits E id -> In (c, n) member_codes -> length zs = n -> symbol G t x id G' -> offsets t1 zs ->
      auto_arg G (c ++ t ++ t1) (braces (x :: map dec_Z zs)) (remember id G')
  | aa_bare_member G c n t zs : In (c, n) member_codes -> length zs = n -> offsets t zs -> first_is_not "?"%char t ->
      auto_arg G (c ++ t) (braces (map dec_Z zs)) G
  | aa_data G c n t zs : In (c, n) data_codes -> length zs = n -> offsets t zs -> auto_arg G (c ++ t) (braces (map dec_Z zs)) G
  | aa_member_md5 G c n h t zs : fits E (md5_text h) -> md5_key h -> In (c, n) member_codes -> length zs = n -> offsets t zs ->
      auto_arg G (c ++ md5_text h ++ t) (braces (md5_text h :: map dec_Z zs)) (remember (md5_text h) G)
  | aa_literal G t x : literal (e_out E) t x -> auto_arg G (L "$E" ++ t) x G

  (** A type without separately encoded qualifiers. *)
  with body : tab -> str -> ty -> tab -> Prop :=
  | bo_prim G k : body G (prim_code k) (TPrim Q_None k) G
  | bo_tag G k t n G' : qname G t n G' -> body G (tag_code k ++ t) (TTag Q_None k n) G'
  | bo_pointer G pt q a p r u t y G' : pointer_code pt q a -> mtype false G t y G' ->
      body G (pt ++ ext_code p r u ++ t) (TPtr (N.lor q (extq p r u)) a None y) G'
  (** References take qualifiers of either kind. *)
  | bo_reference G pt q a p r u t y G' : pointer_code pt q a -> a <> APointer -> mtype true G t y G' ->
      body G (pt ++ ext_code p r u ++ t) (TPtr (N.lor q (extq p r u)) a None y) G'
  | bo_fn_pointer G pt q a t f G' : pointer_code pt q a -> fn false G t f G' ->
      body G (pt ++ L "6" ++ t) (TPtr q a None f) G'
  | bo_member_pointer G pt q p r u c v t n G1 t' y G2 :
      pointer_code pt q APointer -> qname G t n G1 -> body G1 t' y G2 ->
      body G (pt ++ ext_code p r u ++ [cv_code true c v] ++ t ++ t')
        (TPtr (N.lor q (extq p r u)) APointer (Some n) (replace_quals (cvq c v) y)) G2
  | bo_member_fn_pointer G pt q t n G1 t' f G2 :
      pointer_code pt q APointer -> qname G t n G1 -> fn true G1 t' f G2 ->
      body G (pt ++ L "8" ++ t ++ t') (TPtr q APointer (Some n) f) G2
  | bo_array G rt ds dt t y G' : num_text rt (N.of_nat (length ds)) -> ds <> [] -> dims dt ds -> body G t y G' ->
      body G (L "Y" ++ rt ++ dt ++ t) (TArr Q_None ds y) G'
  | bo_array_cv G rt ds dt c v t y G' : num_text rt (N.of_nat (length ds)) -> ds <> [] -> dims dt ds -> body G t y G' ->
      body G (L "Y" ++ rt ++ dt ++ L "$$C" ++ [cv_code false c v] ++ t) (TArr (cvq c v) ds y) G'
  | bo_fn G t f G' : fn false G t f G' -> body G (L "$$A6" ++ t) f G'
  | bo_member_fn G t f G' : fn true G t f G' -> body G (L "$$A8@@" ++ t) f G'
  | bo_custom G t x G' : tname G t x G' -> body G (L "?" ++ t ++ L "@") (TCustom Q_None x) G'

  (** A type preceded by its qualifiers. *)
  with mtype : bool -> tab -> str -> ty -> tab -> Prop :=
  | mt_intro m c v G t y G' : body G t y G' -> mtype m G (cv_code m c v :: t) (add_quals (cvq c v) y) G'

  (** A return type: qualifiers only after ['?']. *)
  with rtype : tab -> str -> ty -> tab -> Prop :=
  | rt_plain G t y G' : body G t y G' -> first_is_not "?"%char t -> rtype G t y G'
  | rt_quals m c v G t y G' : body G t y G' -> rtype G (L "?" ++ [cv_code m c v] ++ t) (add_quals (cvq c v) y) G'

  with rett : tab -> str -> option ty -> tab -> Prop :=
  | re_none G : rett G (L "@") None G
  | re_some G t y G' : rtype G t y G' -> rett G t (Some y) G'

  with param : tab -> str -> ty -> tab -> Prop :=
  | pa_ref G i y : i < 10 -> nth_error (snd G) i = Some y -> param G [digit_char i] y G
  | pa_short G t y G' : body G t y G' -> length t = 1 -> param G t y G'
  | pa_long G t y G' : body G t y G' -> 1 < length t -> param G t y (remember_param y G')

  with params : tab -> str -> list ty -> tab -> Prop :=
  | ps_nil G : params G [] [] G
  | ps_cons G t y G1 t' ys G2 : param G t y G1 -> params G1 t' ys G2 -> params G (t ++ t') (y :: ys) G2

  with plist : tab -> str -> option (list ty) -> bool -> tab -> Prop :=
  | pl_void G : plist G (L "X") None false G
  | pl_fixed G t ys G' : params G t ys G' -> first_is_not "X"%char t -> plist G (t ++ L "@") (Some ys) false G'
  | pl_variadic G t ys G' : params G t ys G' -> first_is_not "X"%char t -> plist G (t ++ L "Z") (Some ys) true G'

  with fn : bool -> tab -> str -> ty -> tab -> Prop :=
  | fn_intro this G tt q rq l cc rt r G1 pt ps v G2 ne :
      this_code this tt q rq -> cc_code l cc -> rett G rt r G1 -> plist G1 pt ps v G2 ->
      fn this G (tt ++ [l] ++ rt ++ pt ++ throw_code ne) (TFun q cc rq r ps v ne) G2

  (** The unqualified identifier of a symbol. *)
  with usym : tab -> str -> idk -> tab -> Prop :=
  | us_ref G i x : i < 10 -> nth_error (fst G) i = Some x -> usym G [digit_char i] (IText x) G
  | us_base G t i G' : ubase G t i G' -> usym G t i G'
  | us_unnamed G c : In c free_codes -> usym G (L "?" ++ c) (IText []) G
  | us_template G b i G1 a xs G2 : tbase b i G1 -> targs G1 a xs G2 ->
      usym G (L "?$" ++ b ++ a) (with_targs i (L "<" ++ join (L ", ") xs ++ L ">")) G

  (** The same where no special symbol is expected. *)
  with dsym : tab -> str -> idk -> tab -> Prop :=
  | ds_usym G t i G' : usym G t i G' -> dsym G t i G'
  | ds_unnamed G c : In c unnamed_codes -> dsym G (L "?" ++ c) (IText []) G

  (** Storage class and type of a variable.  The qualifiers of the variable itself follow its
      type; a pointer variable is followed by extended qualifiers and by the qualifiers of its
      target again. *)
  with variable : tab -> str -> option access -> ty -> tab -> Prop :=
  | va_plain G s a t y G' m c v : storage_code s a -> body G t y G' ->
      (forall q k cl p, y <> TPtr q k cl p) ->
      variable G ([s] ++ t ++ [cv_code m c v]) a (replace_quals (cvq c v) y) G'
  | va_pointer G s a t q k y G' p r u m c v : storage_code s a -> body G t (TPtr q k None y) G' ->
      variable G ([s] ++ t ++ ext_code p r u ++ [cv_code m c v]) a
        (TPtr (N.lor q (extq p r u)) k None (add_quals (cvq c v) y)) G'
  | va_member_pointer G s a t q k n y G1 p r u m c v t' n' G2 :
      storage_code s a -> body G t (TPtr q k (Some n) y) G1 -> qname G1 t' n' G2 ->
      variable G ([s] ++ t ++ ext_code p r u ++ [cv_code m c v] ++ t') a
        (TPtr (N.lor q (extq p r u)) k (Some n) (add_quals (cvq c v) y)) G2

  (** Class and type of a function; the type is absent after ['9']. *)
  with function : tab -> str -> fn_class -> adjustment -> option ty -> tab -> Prop :=
  | fu_typed x G ct c a this t f G' : class_code x ct c a this -> fn this G t f G' ->
      function G (opt x (L "$$J0") ++ ct ++ t) c a (Some f) G'
  | fu_untyped x G : function G (opt x (L "$$J0") ++ L "9") (FnClass None false false true) NoAdjustment None G

  (** A symbol: its whole text, and that of its unqualified identifier. *)
  with symbol : tab -> str -> str -> str -> tab -> Prop :=
  | sy_variable G n i G1 c ss G2 v a y G3 x : usym G n i G1 -> chain G1 c ss G2 -> variable G2 v a y G3 ->
      id_text E i ss None x ->
      symbol G (L "?" ++ n ++ c ++ v) (show_variable E a y (qualified (ss ++ [x]))) x G3
  | sy_function G n i G1 c ss G2 f k a sig G3 x : usym G n i G1 -> chain G1 c ss G2 -> function G2 f k a sig G3 ->
      id_text E i ss (match sig with Some (TFun _ _ _ r _ _ _) => r | _ => None end) x ->
      symbol G (L "?" ++ n ++ c ++ f) (show_function E k a sig (qualified (ss ++ [x]))) x G3
  (** ["_R"] as an operator without a name. *)
  | sy_variable_R G c ss G2 v a y G3 : chain G c ss G2 -> (forall d r, In d (L "01234") -> c <> d :: r) -> variable G2 v a y G3 ->
      symbol G (L "?" ++ L "?_R" ++ c ++ v) (show_variable E a y (qualified (ss ++ [[]]))) [] G3
  | sy_function_R G c ss G2 f k a sig G3 : chain G c ss G2 -> (forall d r, In d (L "01234") -> c <> d :: r) -> function G2 f k a sig G3 ->
      symbol G (L "?" ++ L "?_R" ++ c ++ f) (show_function E k a sig (qualified (ss ++ [[]]))) [] G3
  (** Tables of a class, for the class itself or for a base. *)
  | sy_table G k nm c ss G1 far m qc qv : In (k, nm) table_codes -> chain G c ss G1 -> In far (L "67") ->
      symbol G (L "??" ++ k ++ c ++ [far; cv_code m qc qv] ++ L "@") (show_table E (cvq qc qv) (qualified (ss ++ [nm])) None) nm G1
  | sy_table_for G k nm c ss G1 far m qc qv t n G2 : In (k, nm) table_codes -> chain G c ss G1 -> In far (L "67") -> qname G1 t n G2 ->
      symbol G (L "??" ++ k ++ c ++ [far; cv_code m qc qv] ++ t) (show_table E (cvq qc qv) (qualified (ss ++ [nm])) (Some n)) nm G2
  (** RTTI data without a type. *)
  | sy_rtti G k nm c ss G1 : In (k, nm) rtti_codes -> chain G c ss G1 ->
      symbol G (L "??" ++ k ++ c ++ L "8") (qualified (ss ++ [nm])) nm G1
  | sy_base_descriptor G t1 nv t2 vbptr t3 vbt t4 fl c ss G1 : num_text t1 nv -> signed_number t2 vbptr -> num_text t3 vbt -> num_text t4 fl ->
      (nv < 2 ^ 32)%N -> (- 2 ^ 31 <= vbptr < 2 ^ 31)%Z -> (vbt < 2 ^ 32)%N -> (fl < 2 ^ 32)%N -> chain G c ss G1 ->
      symbol G (L "??_R1" ++ t1 ++ t2 ++ t3 ++ t4 ++ c ++ L "8")
        (qualified (ss ++ [base_descriptor_text nv vbptr vbt fl])) (base_descriptor_text nv vbptr vbt fl) G1
  (** A thunk that calls a virtual function. *)
  | sy_vcall G c ss G1 t off l cc : chain G c ss G1 -> num_text t off -> cc_code l cc ->
      symbol G (L "??_9" ++ c ++ L "$B" ++ t ++ L "A" ++ [l])
        (show_function E (FnClass None false false false) (VirtualCall cc) None (qualified (ss ++ [vcall_text E off]))) (vcall_text E off) G1
  (** The guard of a local static with its scope index. *)
  | sy_guard G thread c ss G1 (visible : bool) t i : chain G c ss G1 -> num_text t i -> (i < 2 ^ 32)%N ->
      symbol G (guard_code thread ++ c ++ (if visible then L "5" else L "4IA") ++ t) (qualified (ss ++ [guard_text thread i])) (guard_text thread i) G1
  (** The initializer or destructor of a global given by name, or by its whole declaration
      (then with or without ['?']). *)
  | sy_dynamic G d n i G1 c ss G2 f k a sig G3 x : usym G n i G1 -> first_is_not "?"%char n -> chain G1 c ss G2 -> function G2 f k a sig G3 ->
      id_text E i ss (match sig with Some (TFun _ _ _ r _ _ _) => r | _ => None end) x ->
      symbol G (dynamic_code d ++ n ++ c ++ f)
        (show_function E k a sig (dynamic_text d false (qualified (ss ++ [x])))) (dynamic_text d false (qualified (ss ++ [x]))) G3
  | sy_dynamic_variable G d (known : bool) n i G1 c ss G2 v acc y G3 x f k a sig G4 : dsym G n i G1 -> (known = false -> first_is_not "?"%char n) ->
      chain G1 c ss G2 -> variable G2 v acc y G3 -> id_text E i ss None x -> function G3 f k a sig G4 ->
      symbol G (dynamic_code d ++ opt known (L "?") ++ n ++ c ++ v ++ (if known then L "@@" else L "@") ++ f)
        (show_function E k a sig (dynamic_text d true (show_variable E acc y (qualified (ss ++ [x])))))
        (dynamic_text d true (show_variable E acc y (qualified (ss ++ [x])))) G4
  (** An MD5 name with its locator suffix. *)
  | sy_md5 G h : md5_key h -> symbol G (md5_text h ++ locator) (md5_text h ++ locator) (md5_text h ++ locator) G.
End Grammar.
