(** Base definitions: outcomes, characters and strings, UTF-8, number formatting.
    Everything here models facilities of the Rust standard library that
    /repo/src relies on; the users are cited at each definition. *)
From Coq Require Export String Ascii.
From Coq Require Export NArith ZArith List Bool Lia.
Export ListNotations.

(** Error values of [Error] (/repo/src/lib.rs:50-202).  [Io] carries the two
    [io::ErrorKind]s that can arise. *)
Inductive iokind := UnexpectedEof | OutOfMemory.

Inductive error :=
| InvalidAnonymousNamespaceName | InvalidArrayType | InvalidBackRef
| InvalidCallingConvention | InvalidCharLiteral | InvalidClassType
| InvalidCustomType | InvalidDeclarator | InvalidEncodedSymbol
| InvalidFullyQualifiedSymbolName | InvalidFunctionClass | InvalidFunctionEncoding
| InvalidFunctionIdentifierCode | InvalidFunctionParameterList | InvalidFunctionType
| InvalidInitFiniStub | InvalidIntrinsicFunctionCode | InvalidLocallyScopedNamePiece
| InvalidLocalStaticGuard | InvalidMd5Name | InvalidMemberPointerType
| InvalidNameScopeChain | InvalidNumber | InvalidPointerCVQualifiers
| InvalidPointerType | InvalidPrimitiveType | InvalidQualifiers
| InvalidRttiBaseClassDescriptorNode | InvalidSigned | InvalidSimpleString
| InvalidSpecialIntrinsic | InvalidSpecialTableSymbolNode | InvalidStringLiteral
| InvalidTagUniqueName | InvalidTemplateInstantiationName | InvalidTemplateParameterList
| InvalidThrowSpecification | InvalidType | InvalidTypeinfoName | InvalidUnsigned
| InvalidUntypedVariable | InvalidVariableStorageClass | InvalidVcallThunkNode
| Io (k : iokind) | Utf8Error | MaliciousInput.

(** Outcome of a modelled computation: [Ok]/[Err] are Rust's [Result];
    [Panic] is a Rust panic or a violated [unsafe] precondition;
    [Fuel] means the model's own recursion bound was hit (no Rust counterpart). *)
Inductive res (A : Type) :=
| Ok (a : A)
| Err (e : error)
| Panic
| Fuel.
Arguments Ok {A} _.
Arguments Err {A} _.
Arguments Panic {A}.
Arguments Fuel {A}.

(** Rust [char] is a code point, [&str] a list of code points. *)
(** [&str] and [char], /repo/src/mangled_string.rs:18-22. *)
Definition str := list N.

(** Character and string literals. *)
(** Used for the character literals of /repo/src/demangler.rs:294-2330. *)
Definition ch (a : ascii) : N := N_of_ascii a.
Arguments ch _%char.
(** Used for the string literals of /repo/src/nodes/derived.rs:83-1245 and /repo/src/demangler.rs:294-2330. *)
Definition L (s : string) : str := map N_of_ascii (list_ascii_of_string s).
Arguments L _%string.

(** Unicode scalar values (the values of Rust's [char]). *)
(** /repo/src/mangled_string.rs:34-40 (reading), /repo/src/demangler.rs:2254-2257 ([char::from_u32_unchecked]). *)
Definition scalar (c : N) : bool := (c <? 0xD800)%N || ((0xE000 <=? c)%N && (c <? 0x110000)%N).

(** [char::len_utf8]. *)
Definition utf8_len (c : N) : nat :=
  if (c <? 0x80)%N then 1 else if (c <? 0x800)%N then 2 else if (c <? 0x10000)%N then 3 else 4.

(** [char::encode_utf8]. *)
(** /repo/src/demangler.rs:155-167 (writing). *)
Definition utf8_char (c : N) : list N :=
  if (c <? 0x80)%N then [c]
  else if (c <? 0x800)%N then [0xC0 + c / 64; 0x80 + c mod 64]%N
  else if (c <? 0x10000)%N then [0xE0 + c / 4096; 0x80 + (c / 64) mod 64; 0x80 + c mod 64]%N
  else [0xF0 + c / 262144; 0x80 + (c / 4096) mod 64; 0x80 + (c / 64) mod 64; 0x80 + c mod 64]%N.

(** [str::as_bytes]. *)
(** /repo/src/demangler.rs:128-138. *)
Definition utf8 (s : str) : list N := flat_map utf8_char s.

(** [str::len], /repo/src/mangled_string.rs:120-122. *)
Definition str_bytes (s : str) : nat := list_sum (map utf8_len s).

(** A continuation byte, for [from_utf8] below. *)
Definition is_cont (b : N) : bool := (0x80 <=? b)%N && (b <? 0xC0)%N.

(** One step of [std::str::from_utf8]: decode the first character, rejecting stray
    continuation bytes, overlong forms, surrogates and values above U+10FFFF. *)
Definition utf8_step (bs : list N) : option (N * list N) :=
  match bs with
  | [] => None
  | b0 :: r =>
    if (b0 <? 0x80)%N then Some (b0, r)
    else if (b0 <? 0xC2)%N then None
    else if (b0 <? 0xE0)%N then
      match r with
      | b1 :: r => if is_cont b1 then Some ((b0 - 0xC0) * 64 + (b1 - 0x80), r)%N else None
      | _ => None
      end
    else if (b0 <? 0xF0)%N then
      match r with
      | b1 :: b2 :: r =>
        let c := ((b0 - 0xE0) * 4096 + (b1 - 0x80) * 64 + (b2 - 0x80))%N in
        if is_cont b1 && is_cont b2 && (0x800 <=? c)%N && scalar c then Some (c, r) else None
      | _ => None
      end
    else if (b0 <? 0xF5)%N then
      match r with
      | b1 :: b2 :: b3 :: r =>
        let c := ((b0 - 0xF0) * 262144 + (b1 - 0x80) * 4096 + (b2 - 0x80) * 64 + (b3 - 0x80))%N in
        if is_cont b1 && is_cont b2 && is_cont b3 && (0x10000 <=? c)%N && scalar c
        then Some (c, r) else None
      | _ => None
      end
    else None
  end.

(** [std::str::from_utf8] by steps, /repo/src/demangler.rs:122, 180 and 281. *)
Fixpoint utf8_decode (fuel : nat) (bs : list N) : option str :=
  match bs with
  | [] => Some []
  | _ =>
    match fuel with
    | O => None
    | S fuel =>
      match utf8_step bs with
      | None => None
      | Some (c, r) =>
        match utf8_decode fuel r with
        | Some s => Some (c :: s)
        | None => None
        end
      end
    end
  end.

(** [std::str::from_utf8]: each character takes at least one byte, so the length is enough fuel. *)
Definition from_utf8 (bs : list N) : option str := utf8_decode (length bs) bs.

(** ASCII classes ([char::is_ascii_digit], ...). *)
(** /repo/src/demangler.rs:1052, 1292, 2099-2125; /repo/src/extensions.rs:22. *)
Definition in_range (lo hi c : N) : bool := (lo <=? c)%N && (c <=? hi)%N.
Definition is_digit (c : N) : bool := in_range (ch "0") (ch "9") c.
Definition is_upper (c : N) : bool := in_range (ch "A") (ch "Z") c.
Definition is_lower (c : N) : bool := in_range (ch "a") (ch "z") c.
Definition is_ascii_alnum (c : N) : bool := is_digit c || is_upper c || is_lower c.

(** Decimal formatting, the [Display] impls of the unsigned integers. *)
(** /repo/src/nodes/derived.rs:352-357, 680, 746, 877, 1069. *)
Fixpoint dec_loop (fuel : nat) (n : N) (acc : str) : str :=
  match fuel with
  | O => acc
  | S fuel =>
    let acc := (ch "0" + n mod 10)%N :: acc in
    if (n <? 10)%N then acc else dec_loop fuel (n / 10)%N acc
  end.
Definition dec_N (n : N) : str := dec_loop (S (N.to_nat (N.size n))) n [].

(** [Display] of the signed integers. *)
Definition dec_Z (z : Z) : str :=
  match z with
  | Zneg p => ch "-" :: dec_N (Npos p)
  | _ => dec_N (Z.to_N z)
  end.

(** Upper-case hexadecimal with at least two digits, the format [{:02X}]
    (/repo/src/demangler.rs:2259). *)
Definition hex_digit (d : N) : N := if (d <? 10)%N then (ch "0" + d)%N else (ch "A" + (d - 10))%N.
Fixpoint hex_loop (fuel : nat) (n : N) (acc : str) : str :=
  match fuel with
  | O => acc
  | S fuel =>
    let acc := hex_digit (n mod 16) :: acc in
    if (n <? 16)%N then acc else hex_loop fuel (n / 16)%N acc
  end.
Definition hex2_N (n : N) : str :=
  let s := hex_loop (S (N.to_nat (N.size n))) n [] in
  match s with [d] => [ch "0"; d] | _ => s end.

(** Bit-set membership, [bitflags]'s [contains]. *)
(** /repo/src/lib.rs:334-384, /repo/src/nodes/enums.rs:353-408. *)
Definition contains (f m : N) : bool := (N.land f m =? m)%N.

(** Equality of strings. *)
(** [==] on [&str], /repo/src/demangler.rs:1094-1110. *)
Fixpoint str_eqb (a b : str) : bool :=
  match a, b with
  | [], [] => true
  | x :: a, y :: b => (x =? y)%N && str_eqb a b
  | _, _ => false
  end.

(** Association-list lookup on characters; models [match c { 'x' => .. , .. }]. *)
(** /repo/src/demangler.rs:591-635, 1947-2020, 2100-2140. *)
Fixpoint lookup {A} (c : N) (t : list (N * A)) : option A :=
  match t with
  | [] => None
  | (k, v) :: t => if (c =? k)%N then Some v else lookup c t
  end.
