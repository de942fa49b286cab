(** Specification: mangled string literals.  Nothing here mentions the parser. *)
From Verif Require Import Syntax Number.

(** How one byte is spelled in a mangled string literal. *)
Definition punctuation : str := L ",/\:. " ++ [10; 9; 39]%N ++ L "-".
Inductive byte_text : str -> N -> Prop :=
| by_plain c : (c < 256)%N -> c <> ch "?" -> c <> ch "@" -> byte_text [c] c
| by_hex hi lo : (hi < 16)%N -> (lo < 16)%N -> byte_text (L "?$" ++ [ch "A" + hi; ch "A" + lo])%N (16 * hi + lo)%N
| by_punctuation i c : i < 10 -> nth_error punctuation i = Some c -> byte_text [ch "?"; ch "0" + N.of_nat i]%N c
| by_lower i : (i < 26)%N -> byte_text [ch "?"; ch "a" + i]%N (0xE1 + i)%N
| by_upper i : (i < 26)%N -> byte_text [ch "?"; ch "A" + i]%N (0xC1 + i)%N.
(** A sequence of bytes. *)
Inductive bytes_text : str -> list N -> Prop :=
| bs_nil : bytes_text [] []
| bs_cons t b ts bs : byte_text t b -> bytes_text ts bs -> bytes_text (t ++ ts) (b :: bs).

(** A sequence of pairs of bytes: after the first byte of a pair, ['@'] stands for itself. *)
Inductive wides_text : str -> list N -> Prop :=
| ws_nil : wides_text [] []
| ws_cons t1 a t2 b ts bs : byte_text t1 a -> byte_text t2 b \/ t2 = L "@" /\ b = ch "@" -> wides_text ts bs ->
    wides_text (t1 ++ t2 ++ ts) (a :: b :: bs).

(** The C escape of a character code. *)
Definition c_escape (c : N) : str :=
  match c with
  | 0 => L "\0" | 7 => L "\a" | 8 => L "\b" | 9 => L "\t" | 10 => L "\n" | 11 => L "\v" | 12 => L "\f" | 13 => L "\r"
  | 34 => L "\""" | 39 => L "\'" | 92 => L "\\"
  | _ => if in_range 32 126 c then [c] else L "\x" ++ hex2_N c
  end%N.
Definition c_text (l : list N) : str := concat (map c_escape l).

(** Little-endian characters of one, two or four bytes; an incomplete one at the end is dropped. *)
Fixpoint units2 (l : list N) : list N :=
  match l with a :: b :: l => (a + 256 * b)%N :: units2 l | _ => [] end.
Fixpoint units4 (l : list N) : list N :=
  match l with a :: b :: c :: d :: l => (a + 256 * (b + 256 * (c + 256 * d)))%N :: units4 l | _ => [] end.

(** The width of the characters of a narrow literal is guessed from its declared length
    and its zero bytes. *)
Definition zeros (l : list N) : nat := count_occ N.eq_dec l 0%N.
Inductive width := W1 | W2 | W4.
Definition ends_with_zeros (n : nat) (l : list N) : bool :=
  (n <=? length l) && forallb (fun b => (b =? 0)%N) (skipn (length l - n) l).
Definition guess_width (l : list N) (len : N) : width :=
  if N.odd len then W1
  else if (len <? 32)%N then
    if ends_with_zeros 4 l && (len mod 4 =? 0)%N then W4 else if ends_with_zeros 2 l then W2 else W1
  else if (2 * length l / 3 <=? zeros l) && (len mod 4 =? 0)%N then W4
  else if length l / 3 <=? zeros l then W2 else W1.
Definition units (w : width) (l : list N) : list N := match w with W1 => l | W2 => units2 l | W4 => units4 l end.
Definition quote (w : width) : str := match w with W1 => L """" | W2 => L "u""" | W4 => L "U""" end.

(** The text of a narrow literal: all characters but the terminator; all of them, and dots, if
    the declared length exceeds the bytes given. *)
Definition narrow_text (l : list N) (len : N) : str :=
  let w := guess_width l len in
  if (N.of_nat (length l) <? len)%N then quote w ++ c_text (units w l) ++ L """..."
  else quote w ++ c_text (removelast (units w l)) ++ L """".

(** Wide characters are pairs of bytes, high byte first. *)
Fixpoint wide_units (l : list N) : list N :=
  match l with a :: b :: l => (256 * a + b)%N :: wide_units l | _ => [] end.
(** The text of a wide literal: beyond 64 bytes it is truncated; otherwise the character that
    ends at the declared length is the terminator. *)
Definition wide_text (l : list N) (len : N) : str :=
  let u := wide_units l in
  if (64 <? len)%N then L "L""" ++ c_text u ++ L """..."
  else L "L""" ++ c_text (if N.even len then firstn (N.to_nat len / 2 - 1) u ++ skipn (N.to_nat len / 2) u else u) ++ L """".

(** The characters between the quotes. *)
Definition narrow_chars (l : list N) (len : N) : list N :=
  let u := units (guess_width l len) l in if (N.of_nat (length l) <? len)%N then u else removelast u.
Definition wide_chars (l : list N) (len : N) : list N :=
  let u := wide_units l in
  if (64 <? len)%N then u else if N.even len then firstn (N.to_nat len / 2 - 1) u ++ skipn (N.to_nat len / 2) u else u.

(** A literal: its declared length, a check sum (anything without ['@']) and its bytes.
    [limit] is the room for the decoded characters. *)
Inductive literal (limit : N) : str -> str -> Prop :=
| li_narrow nt len crc ts l : num_text nt len -> (1 <= len)%N -> ~ In (ch "@") crc -> bytes_text ts l -> length l <= 128 ->
    (N.of_nat (length (c_text (narrow_chars l len))) < limit)%N ->
    literal limit (L "??_C@_0" ++ nt ++ crc ++ L "@" ++ ts ++ L "@") (narrow_text l len)
| li_wide nt len crc ts l : num_text nt len -> (2 <= len)%N -> ~ In (ch "@") crc -> wides_text ts l ->
    (N.of_nat (length (c_text (wide_chars l len))) < limit)%N ->
    literal limit (L "??_C@_1" ++ nt ++ crc ++ L "@" ++ ts ++ L "@") (wide_text l len).
