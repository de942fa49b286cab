(** [MangledString] (/repo/src/mangled_string.rs) and [CharExt] (/repo/src/extensions.rs). *)
From Verif Require Export Syntax.

(** /repo/src/mangled_string.rs:18-22: the remaining text and its cached character count. *)
Record mstring := mkMS { ms_str : str; ms_chars : nat }.

(** [MangledString::new], 25-30. *)
Definition ms_new (s : str) : mstring := mkMS s (length s).

(** [self.chars -= n] (overflow would panic). *)
(** /repo/src/mangled_string.rs:37, 60, 68, 80, 88. *)
Definition ms_drop (m : mstring) (rest : str) (n : nat) : res mstring :=
  if n <=? ms_chars m then Ok (mkMS rest (ms_chars m - n)) else Panic.

(** Result of the consuming methods: the optional value and the new string. *)
(** The return types of /repo/src/mangled_string.rs:34-91. *)
Definition mres A := res (option A * mstring).

(** [try_consume], 34-40. *)
Definition try_consume (m : mstring) : mres N :=
  match ms_str m with
  | [] => Ok (None, m)
  | c :: r => match ms_drop m r 1 with Ok m' => Ok (Some c, m') | Err e => Err e | Panic => Panic | Fuel => Fuel end
  end.

(** [try_consume_char_if], 52-63. *)
Definition try_consume_char_if (f : N -> bool) (m : mstring) : mres N :=
  match ms_str m with
  | [] => Ok (None, m)
  | c :: r =>
    if f c then match ms_drop m r 1 with Ok m' => Ok (Some c, m') | Err e => Err e | Panic => Panic | Fuel => Fuel end
    else Ok (None, m)
  end.

(** [try_consume_char], 42-50. *)
Definition try_consume_char (e : N) (m : mstring) : mres N := try_consume_char_if (fun c => (c =? e)%N) m.

(** [str::split_at_checked]: split at a byte offset, [None] off a character boundary or
    past the end. *)
(** Used at /repo/src/mangled_string.rs:66. *)
Fixpoint split_bytes (n : nat) (s : str) : option (str * str) :=
  match n with
  | O => Some ([], s)
  | _ =>
    match s with
    | [] => None
    | c :: r =>
      if utf8_len c <=? n
      then match split_bytes (n - utf8_len c) r with
           | Some (a, b) => Some (c :: a, b)
           | None => None
           end
      else None
    end
  end.

(** [try_consume_n_bytes], 65-71. *)
Definition try_consume_n_bytes (n : nat) (m : mstring) : mres str :=
  match split_bytes n (ms_str m) with
  | None => Ok (None, m)
  | Some (a, b) => match ms_drop m b (length a) with Ok m' => Ok (Some a, m') | Err e => Err e | Panic => Panic | Fuel => Fuel end
  end.

(** [try_consume_n_chars::<2>], 73-83 (the only instance used). *)
Definition try_consume_2_chars (m : mstring) : mres (N * N) :=
  match ms_str m with
  | c1 :: c2 :: r => match ms_drop m r 2 with Ok m' => Ok (Some (c1, c2), m') | Err e => Err e | Panic => Panic | Fuel => Fuel end
  | _ => Ok (None, m)
  end.

(** [str::strip_prefix]/[starts_with] on characters. *)
(** Used at /repo/src/mangled_string.rs:86 and 140. *)
Fixpoint strip_prefix (p s : str) : option str :=
  match p, s with
  | [], _ => Some s
  | x :: p, y :: s => if (x =? y)%N then strip_prefix p s else None
  | _, [] => None
  end.

(** [try_consume_str], 85-91. *)
Definition try_consume_str (p : str) (m : mstring) : mres str :=
  match strip_prefix p (ms_str m) with
  | None => Ok (None, m)
  | Some r => match ms_drop m r (length p) with Ok m' => Ok (Some p, m') | Err e => Err e | Panic => Panic | Fuel => Fuel end
  end.

(** [find_char], 99-106: a byte offset. *)
Fixpoint find_char (x : N) (s : str) : option nat :=
  match s with
  | [] => None
  | c :: r =>
    if (c =? x)%N then Some 0
    else match find_char x r with Some i => Some (utf8_len c + i) | None => None end
  end.

(** [first_char], 108-110; [is_empty], 112-114; [starts_with], 139-141. *)
Definition first_char (s : str) : option N := match s with c :: _ => Some c | [] => None end.
Definition is_empty (s : str) : bool := match s with [] => true | _ => false end.
Definition starts_with (p s : str) : bool := match strip_prefix p s with Some _ => true | None => false end.

(** [char::is_rebased_ascii_hexdigit], /repo/src/extensions.rs:21-23. *)
Definition is_rebased (c : N) : bool := in_range (ch "A") (ch "P") c.

(** [try_convert_rebased_ascii_hexdigit_to_number], /repo/src/extensions.rs:25-36. *)
Definition rebased_to_number (c : N) : option N :=
  if is_rebased c then
    (if (c <=? ch "J")%N then Some (c - ch "A")%N else Some (10 + c - ch "K")%N)
  else None.

(** First-character tests on an optional character. *)
(** As in /repo/src/demangler.rs:1165-1169. *)
Definition first_is (f : N -> bool) (s : str) : bool :=
  match first_char s with Some c => f c | None => false end.

(** [matches!(c, ..)], as in /repo/src/mangled_string.rs:246-266. *)
Definition one_of (l : str) (c : N) : bool := existsb (fun x => (c =? x)%N) l.

(** [starts_with_local_scope_pattern], 145-191.  The copy of the string is consumed by
    value, so the character counters of the copies never escape; the slices are taken at
    offsets of ASCII characters, hence on boundaries ([split_bytes] returning [None] is the
    panic). *)
Definition local_scope_pattern (s : str) : res bool :=
  match s with
  | q :: s' =>
    if (q =? ch "?")%N then
      match find_char (ch "?") s' with
      | None => Ok false
      | Some e =>
        match split_bytes e s' with
        | None => Panic
        | Some (cand, _) =>
          match cand with
          | [] => Ok false
          | [c] => Ok ((c =? ch "@")%N || is_digit c)
          | c0 :: r =>
            if (last cand 0 =? ch "@")%N then
              match split_bytes (str_bytes cand - 1) cand with
              | None => Panic
              | Some (body, _) =>
                match body with
                | [] => Ok false
                | b0 :: bs => Ok (in_range (ch "B") (ch "P") b0 && forallb is_rebased bs)
                end
              end
            else Ok false
          end
        end
      end
    else Ok false
  | [] => Ok false
  end.

(** [is_array_type] 193-195, [is_custom_type] 197-199, [is_function_type] 201-203. *)
Definition is_array_type (s : str) : bool := first_is (fun c => (c =? ch "Y")%N) s.
Definition is_custom_type (s : str) : bool := first_is (fun c => (c =? ch "?")%N) s.
Definition is_function_type (s : str) : bool := starts_with (L "$$A8@@") s || starts_with (L "$$A6") s.

(** Optional skip of one character on a by-value copy. *)
(** [slice(n..)], /repo/src/mangled_string.rs:127-136. *)
Definition skip (c : N) (s : str) : str :=
  match s with x :: r => if (x =? c)%N then r else s | [] => [] end.

(** [is_member_pointer], 205-244. *)
Definition is_member_pointer (s : str) : option bool :=
  match s with
  | [] => None
  | c :: s1 =>
    if one_of (L "$A") c then Some false
    else if one_of (L "PQRS") c then
      let rest (s2 : str) :=
        let s3 := skip (ch "F") (skip (ch "I") (skip (ch "E") s2)) in
        match s3 with
        | [] => None
        | c3 :: _ =>
          if one_of (L "ABCD") c3 then Some false
          else if one_of (L "QRST") c3 then Some true
          else None
        end in
      match s1 with
      | d :: _ =>
        if is_digit d then
          (if (d =? ch "6")%N then Some false else if (d =? ch "8")%N then Some true else None)
        else rest s1
      | [] => rest s1
      end
    else None
  end.

(** [is_pointer_type], 246-258; [is_tag_type], 260-266. *)
Definition is_pointer_type (s : str) : bool :=
  starts_with (L "$$Q") s || first_is (one_of (L "APQRS")) s.
Definition is_tag_type (s : str) : bool := first_is (one_of (L "TUVW")) s.
