(** C49: machine integers and unchecked operations.  The leaf functions of the demangler once more,
    with the fixed-width arithmetic of the Rust source - every [+], [-], [*], [<<] and unary [-] as
    a debug build checks it, every [as] as it truncates, every [unsafe] operation with its
    precondition - and the proof that they are the functions of the model. *)
From Verif Require Import Parser Api Utf8 Lex.

(** ** Specification: the operations of fixed-width integers ([w] bits) *)
(** [a + b], [a - b], [a * b], [-z] with overflow checks. *)
Definition c_add (w a b : N) : res N := if (a + b <? 2 ^ w)%N then Ok (a + b)%N else Panic.
Definition c_sub (a b : N) : res N := if (b <=? a)%N then Ok (a - b)%N else Panic.
Definition c_mul (w a b : N) : res N := if (a * b <? 2 ^ w)%N then Ok (a * b)%N else Panic.
Definition c_neg64 (z : Z) : res Z := if (z =? - 2 ^ 63)%Z then Panic else Ok (- z)%Z.
(** [a << k]: the amount is checked, lost bits are not.  [a.wrapping_shl(k)], [a.wrapping_sub(b)],
    [a.saturating_sub(b)]. *)
Definition c_shl (w a k : N) : res N := if (k <? w)%N then Ok (N.shiftl a k mod 2 ^ w)%N else Panic.
Definition wrapping_shl (w a k : N) : N := (N.shiftl a (k mod w) mod 2 ^ w)%N.
Definition wrapping_sub (w a b : N) : N := if (b <=? a)%N then (a - b)%N else (2 ^ w + a - b)%N.
Definition saturating_sub (a b : N) : N := if (b <=? a)%N then (a - b)%N else 0%N.
(** [x as u8] and so on keep the low bits; a negative number is stored in two's complement. *)
Definition cast (w a : N) : N := (a mod 2 ^ w)%N.
Definition bits64 (z : Z) : N := if (z <? 0)%Z then (2 ^ 64 - Z.to_N (- z))%N else Z.to_N z.
Definition signed_of (w a : N) : Z := if (a <? 2 ^ (w - 1))%N then Z.of_N a else (Z.of_N a - 2 ^ Z.of_N w)%Z.
(** [u8::try_from], [u32::try_from], [i64::try_from], [i32::try_from]. *)
Definition try_u (w a : N) : option N := if (a <? 2 ^ w)%N then Some a else None.
Definition try_i64 (a : N) : option Z := if (a <? 2 ^ 63)%N then Some (Z.of_N a) else None.
Definition try_i32 (z : Z) : option Z := if ((- 2 ^ 31 <=? z) && (z <? 2 ^ 31))%Z then Some z else None.

(** The unchecked operations; [Panic] is undefined behaviour. *)
Definition get_unchecked {A} (l : list A) (i : N) : res A :=
  match nth_error l (N.to_nat i) with Some x => Ok x | None => Panic end.
Definition unwrap_unchecked {A} (o : option A) : res A := match o with Some x => Ok x | None => Panic end.
Definition from_u32_unchecked (c : N) : res N := if scalar c then Ok c else Panic.
(** [ArrayVec<_, 10>::push_unchecked]; [NonMaxUsize::new_unchecked] for [w]-bit addresses;
    [String::from_utf8_unchecked]. *)
Definition push_unchecked {A} (cap : nat) (l : list A) (x : A) : res (list A) :=
  if length l <? cap then Ok (l ++ [x]) else Panic.
Definition nonmax_unchecked (w i : N) : res N := if (i =? 2 ^ w - 1)%N then Panic else Ok i.
Definition from_utf8_unchecked (bs : list N) : res (list N) :=
  match from_utf8 bs with Some _ => Ok bs | None => Panic end.

(** Running an operation inside the parser. *)
Definition run {A} (r : res A) : M A := fun s =>
  match r with Ok a => Ok (a, s) | Err e => Err e | Panic => Panic | Fuel => Fuel end.
Definition rthen {A B} (r : res A) (f : A -> res B) : res B :=
  match r with Ok a => f a | Err e => Err e | Panic => Panic | Fuel => Fuel end.
Notation "x <~ r ;; k" := (rthen r (fun x => k)) (at level 100, r at next level, right associativity).

(** ** The leaf functions with these operations *)
(** [try_convert_rebased_ascii_hexdigit_to_number], /repo/src/extensions.rs:25-36. *)
Definition hexdigit_m (c : N) : res (option N) :=
  if is_rebased c then
    let this := cast 8 c in
    if (this <=? ch "J")%N then d <~ c_sub this (ch "A") ;; Ok (Some d)
    else a <~ c_add 8 10 this ;; d <~ c_sub a (ch "K") ;; Ok (Some d)
  else Ok None.

(** [demangle_number], /repo/src/demangler.rs:1046-1073. *)
Fixpoint number_loop_m (fuel : nat) (c number : N) : M N :=
  match fuel with
  | O => nofuel
  | S fuel =>
    if (c =? ch "@")%N then ret number
    else if is_rebased c then
      d <- run (c_sub (cast 8 c) (ch "A")) ;;
      number <- run (c_add 64 (wrapping_shl 64 number 4) d) ;;
      c <- next_char InvalidNumber ;;
      number_loop_m fuel c number
    else fail InvalidNumber
  end.
Definition demangle_number_m : M (N * bool) :=
  is_negative <- eat_char (ch "?") ;;
  c <- next_char InvalidNumber ;;
  if is_digit c then
    d <- run (c_sub (cast 8 c) (ch "0")) ;;
    number <- run (c_add 8 d 1) ;;
    ret (number, is_negative)
  else
    s <- text ;;
    number <- number_loop_m (S (length s)) c 0%N ;;
    ret (number, is_negative).
(** [demangle_signed], 1084-1090. *)
Definition demangle_signed_m : M Z :=
  '(number, is_negative) <- demangle_number_m ;;
  x <- ok_or (try_i64 number) InvalidSigned ;;
  if is_negative : bool then run (c_neg64 x) else ret x.
(** [demangle_signed()? as u32] and [as i32], 488-508. *)
Definition as_u32_m (z : Z) : N := cast 32 (bits64 z).
Definition as_i32_m (z : Z) : Z := signed_of 32 (cast 32 (bits64 z)).

(** [demangle_char_literal], 2074-2147, with the tables built by the loops of 2110-2119 and
    2127-2136. *)
Definition table_m (base : N) : list (res N) := map (fun i => c_add 8 base (N.of_nat i)) (seq 0 26).
Definition demangle_char_literal_m : M N :=
  c <- next_char InvalidCharLiteral ;;
  if (c =? ch "?")%N then
    c <- next_char InvalidCharLiteral ;;
    if (c =? ch "$")%N then
      o <- lift try_consume_2_chars ;;
      '(n0, n1) <- ok_or o InvalidCharLiteral ;;
      o1 <- run (hexdigit_m n0) ;;
      c1 <- ok_or o1 InvalidCharLiteral ;;
      o2 <- run (hexdigit_m n1) ;;
      c2 <- ok_or o2 InvalidCharLiteral ;;
      hi <- run (c_shl 8 c1 4) ;;
      ret (N.lor hi c2)
    else if is_digit c then
      i <- run (c_sub (cast 8 c) (ch "0")) ;; run (get_unchecked digit_escapes i)
    else if is_lower c then
      i <- run (c_sub (cast 8 c) (ch "a")) ;; r <- run (get_unchecked (table_m 0xE1) i) ;; run r
    else if is_upper c then
      i <- run (c_sub (cast 8 c) (ch "A")) ;; r <- run (get_unchecked (table_m 0xC1) i) ;; run r
    else fail InvalidCharLiteral
  else ok_or (try_u 8 c) InvalidCharLiteral.
(** [demangle_wchar_literal], 2068-2072, on [u16]. *)
Definition demangle_wchar_literal_m : M N :=
  c1 <- demangle_char_literal_m ;;
  c2 <- demangle_char_literal_m ;;
  hi <- run (c_shl 16 c1 8) ;;
  ret (N.lor hi c2).
(** [output_escaped_char], 2241-2262. *)
Definition escaped_char_m (c : N) : res str :=
  match lookup c escape_table with
  | Some s => Ok s
  | None => if in_range 0x20 0x7E c then x <~ from_u32_unchecked c ;; Ok [x] else Ok (L "\x" ++ hex2_N c)
  end.

(** [translate_intrinsic_function_code], 1287-1421. *)
Definition translate_intrinsic_m (c : N) (g : code_group) : M (option ifk) :=
  if is_digit c || is_upper c then
    let c := cast 8 c in
    i <- (if is_digit c then run (c_sub c (ch "0"))
          else d <- run (c_sub c (ch "A")) ;; run (c_add 8 d 10)) ;;
    run (get_unchecked (group_table g) i)
  else fail InvalidIntrinsicFunctionCode.

(** The characters that select the number of offsets, 952-961 and 996-1002. *)
Definition inheritance_count_m (string : str) : res (option nat) :=
  c <~ unwrap_unchecked (match rev string with c :: _ => Some c | [] => None end) ;;
  Ok (lookup c [(ch "1", 0); (ch "H", 1); (ch "I", 2); (ch "J", 3)]).
Definition data_member_count_m (string : str) : res (option nat) :=
  c <~ unwrap_unchecked (match rev string with c :: _ => Some c | [] => None end) ;;
  Ok (lookup c [(ch "G", 3); (ch "F", 2)]).

(** [demangle_back_ref_name], 1238-1250; the index of a parameter, 836-838. *)
Definition demangle_back_ref_name_m : M handle :=
  o <- eat_if is_digit ;;
  c <- ok_or o InvalidBackRef ;;
  i <- run (c_sub (cast 8 c) (ch "0")) ;;
  s <- get ;;
  ok_or (nth_error (s_names s) (N.to_nat i)) InvalidBackRef.
(** [memorize_string], 1094-1110. *)
Definition memorize_string_m (E : env) (name : str) : M unit :=
  s <- get ;;
  if 10 <=? length (s_names s) then ret tt
  else
    known <- resolve_names (s_names s) ;;
    if existsb (str_eqb name) known then ret tt
    else
      h <- intern E (NNamed None name) ;;
      s <- get ;;
      names <- run (push_unchecked 10 (s_names s) h) ;;
      (fun s => Ok (tt, set_names names s)).

(** Sizes and indices are [W]-bit numbers: 64, or 32 on smaller targets. *)
Section Width.
  Variable W : N.
  (** [NodeCache::intern], /repo/src/cache.rs:313-333. *)
  Definition intern_m (n : node) : M handle := fun s =>
    match
      (len' <~ c_add W (N.of_nat (length (s_store s))) 1 ;;
       if (2 ^ 11 <? len')%N then Err MaliciousInput
       else
         let sg := s_store s ++ [n] in
         id <~ c_sub (N.of_nat (length sg)) 1 ;;
         id <~ nonmax_unchecked W id ;;
         Ok (N.to_nat id, set_store sg s))
    with Ok r => Ok r | Err e => Err e | Panic => Panic | Fuel => Fuel end.

  (** [guess_char_byte_size], 2267-2301. *)
  Definition guess_m (bytes : list N) (num : N) : res (option nat) :=
    if (num =? 0)%N then Ok None
    else if (num mod 2 =? 1)%N then Ok (Some 1)
    else if (num <? 32)%N then
      let z := leading_zeros (rev bytes) in
      Ok (if (4 <=? z) && (num mod 4 =? 0)%N then Some 4 else if 2 <=? z then Some 2 else Some 1)
    else
      e <~ fold_left (fun r b => a <~ r ;; c_add W a (if (b =? 0)%N then 1 else 0)%N) bytes (Ok 0%N) ;;
      t <~ c_mul W 2 (N.of_nat (length bytes)) ;;
      Ok (if (t / 3 <=? e)%N && (num mod 4 =? 0)%N then Some 4
          else if (N.of_nat (length bytes) / 3 <=? e)%N then Some 2 else Some 1).
  (** [decode_multi_byte_char], 2303-2329, on [u32]. *)
  Fixpoint little_endian_m (l : list N) (i : N) (result : N) : res N :=
    match l with
    | [] => Ok result
    | c :: l => k <~ c_mul W 8 i ;; x <~ c_shl 32 c k ;; little_endian_m l (i + 1) (N.lor result x)
    end.
  Definition decode_m (bytes : list N) (idx sz : nat) : res (option N) :=
    if (sz =? 1) || (sz =? 2) || (sz =? 4) then
      offset <~ c_mul W (N.of_nat idx) (N.of_nat sz) ;;
      if (N.of_nat (length bytes) <? offset)%N then Ok None
      else
        let rest := skipn (N.to_nat offset) bytes in
        if length rest <? sz then Ok None
        else x <~ little_endian_m (firstn sz rest) 0 0 ;; Ok (Some x)
    else Ok None.

  (** The position of the class of a structor, 1150-1156. *)
  Definition class_of_m (components : list handle) : option handle :=
    let i := wrapping_sub W (N.of_nat (length components)) 2 in
    if (i <? N.of_nat (length components))%N then nth_error components (N.to_nat i) else None.

  (** The end of an MD5 name, 376-404, and of a checksum, 1819-1825: indices of characters of
      the text, plus the lengths of what is around them. *)
  Definition md5_end_m (stop : nat) (locator : bool) : res (N * N) :=
    after <~ c_add W (N.of_nat stop) 1 ;;
    stop <~ c_add W (N.of_nat stop) 3 ;;
    stop <~ (if locator then c_add W stop 6 else Ok stop) ;;
    Ok (after, stop).
  (** The test of [BufWriter::write], 156-158; [checked_add]. *)
  Definition checked_add (a b : N) : option N := if (a + b <? 2 ^ W)%N then Some (a + b)%N else None.
  Definition write_allowed_m (len have : N) : bool :=
    match checked_add len have with Some x => (x <? 2 ^ 20)%N | None => false end.
End Width.

(** ** They are the functions of the model *)
Lemma range_facts a b c : in_range a b c = true -> (a <= c <= b)%N.
Proof. unfold in_range. intros H. apply andb_true_iff in H. destruct H as [H1 H2]. apply N.leb_le in H1, H2. lia. Qed.
Lemma cast_small w a : (a < 2 ^ w)%N -> cast w a = a.
Proof. apply N.mod_small. Qed.
Lemma c_sub_ok a b : (b <= a)%N -> c_sub a b = Ok (a - b)%N.
Proof. intros H. unfold c_sub. apply N.leb_le in H. rewrite H. reflexivity. Qed.
Lemma c_add_ok w a b : (a + b < 2 ^ w)%N -> c_add w a b = Ok (a + b)%N.
Proof. intros H. unfold c_add. apply N.ltb_lt in H. rewrite H. reflexivity. Qed.
Lemma c_mul_ok w a b : (a * b < 2 ^ w)%N -> c_mul w a b = Ok (a * b)%N.
Proof. intros H. unfold c_mul. apply N.ltb_lt in H. rewrite H. reflexivity. Qed.
Lemma c_shl_ok w a k : (k < w)%N -> (a < 2 ^ (w - k))%N -> c_shl w a k = Ok (N.shiftl a k).
Proof.
  intros Hk Ha. unfold c_shl. apply N.ltb_lt in Hk. rewrite Hk. apply N.ltb_lt in Hk. f_equal. apply N.mod_small.
  rewrite N.shiftl_mul_pow2. replace (2 ^ w)%N with (2 ^ (w - k) * 2 ^ k)%N by (rewrite <- N.pow_add_r; f_equal; lia).
  apply N.mul_lt_mono_pos_r; [|exact Ha]. apply N.neq_0_lt_0, N.pow_nonzero. lia.
Qed.
Lemma digit_facts c : is_digit c = true -> (48 <= c <= 57)%N.
Proof. apply (range_facts 48 57). Qed.
Lemma bind_run {A B} (r : res A) (f : A -> M B) a s : r = Ok a -> bind (run r) f s = f a s.
Proof. intros ->. reflexivity. Qed.
Lemma bind_eq {A B} (m m' : M A) (f f' : A -> M B) s : m s = m' s -> (forall a s', m' s = Ok (a, s') -> f a s' = f' a s') -> bind m f s = bind m' f' s.
Proof. intros Hm Hf. unfold bind. rewrite Hm. destruct (m' s) as [[a s']|e| |]; auto. Qed.

Theorem hexdigit_agrees c : hexdigit_m c = Ok (rebased_to_number c).
Proof.
  unfold hexdigit_m, rebased_to_number. destruct (is_rebased c) eqn:Hr; [|reflexivity]. apply (range_facts 65 80) in Hr. cbv zeta.
  rewrite cast_small by (change (2 ^ 8)%N with 256%N; lia). change (ch "J") with 74%N. change (ch "A") with 65%N. change (ch "K") with 75%N.
  destruct (N.leb_spec c 74).
  - rewrite c_sub_ok by lia. reflexivity.
  - rewrite c_add_ok by (change (2 ^ 8)%N with 256%N; lia). cbn [rthen]. rewrite c_sub_ok by lia. reflexivity.
Qed.

Lemma number_loop_agrees fuel : forall c n s, number_loop_m fuel c n s = number_loop fuel c n s.
Proof.
  induction fuel as [|fuel IH]; intros c n s; [reflexivity|]. cbn [number_loop_m number_loop].
  destruct (_ =? _)%N; [reflexivity|]. destruct (is_rebased c) eqn:Hr; [|reflexivity].
  pose proof (number_step n _ (rebased_le c Hr)) as Hlt. apply (range_facts 65 80) in Hr.
  rewrite cast_small by (change (2 ^ 8)%N with 256%N; lia).
  rewrite (bind_run _ _ (c - ch "A")%N) by (apply c_sub_ok; change (ch "A") with 65%N; lia).
  unfold wrapping_shl. change (4 mod 64)%N with 4%N. change (2 ^ 64)%N with two64.
  rewrite (bind_run _ _ (N.shiftl n 4 mod two64 + (c - ch "A"))%N) by (apply c_add_ok; exact Hlt).
  cbv zeta. apply N.ltb_lt in Hlt. rewrite Hlt. apply bind_eq; [reflexivity|]. intros c' s' _. apply IH.
Qed.
Theorem number_agrees s : demangle_number_m s = demangle_number s.
Proof.
  unfold demangle_number_m, demangle_number. apply bind_eq; [reflexivity|]. intros neg s1 _. apply bind_eq; [reflexivity|]. intros c s2 _.
  destruct (is_digit c) eqn:Hd.
  - apply digit_facts in Hd. rewrite cast_small by (change (2 ^ 8)%N with 256%N; lia). change (ch "0") with 48%N.
    rewrite (bind_run _ _ (c - 48)%N) by (apply c_sub_ok; lia).
    rewrite (bind_run _ _ (c - 48 + 1)%N) by (apply c_add_ok; change (2 ^ 8)%N with 256%N; lia). reflexivity.
  - apply bind_eq; [reflexivity|]. intros t s3 _. apply bind_eq; [apply number_loop_agrees|]. intros n s4 _. reflexivity.
Qed.
Theorem signed_agrees s : demangle_signed_m s = demangle_signed s.
Proof.
  unfold demangle_signed_m, demangle_signed. apply bind_eq; [apply number_agrees|]. intros [n neg] s1 _. unfold try_i64.
  change (2 ^ 63)%N with two63. destruct (n <? two63)%N; [|reflexivity]. destruct neg; [|reflexivity].
  unfold run, bind, ok_or, ret, c_neg64. destruct (Z.eqb_spec (Z.of_N n) (- 2 ^ 63)) as [E|_]; [|reflexivity]. pose proof (N2Z.is_nonneg n). lia.
Qed.
Lemma bits64_mod z : (- 2 ^ 63 <= z < 2 ^ 63)%Z -> bits64 z = Z.to_N (z mod 2 ^ 64).
Proof.
  intros H. unfold bits64. destruct (Z.ltb_spec z 0).
  - replace (z mod 2 ^ 64)%Z with (2 ^ 64 + z)%Z; [lia|]. symmetry. rewrite <- (Z.mod_small (2 ^ 64 + z) (2 ^ 64)) by lia.
    rewrite Z.add_mod, Z_mod_same_full by lia. cbn [Z.add]. rewrite Z.mod_mod by lia. reflexivity.
  - rewrite Z.mod_small by lia. reflexivity.
Qed.
Lemma cast32_mod z : (- 2 ^ 63 <= z < 2 ^ 63)%Z -> Z.of_N (cast 32 (bits64 z)) = (z mod 2 ^ 32)%Z.
Proof.
  intros H. rewrite bits64_mod by exact H. unfold cast. pose proof (Z.mod_pos_bound z (2 ^ 64) ltac:(lia)).
  rewrite N2Z.inj_mod, Z2N.id by lia. change (Z.of_N (2 ^ 32)) with (2 ^ 32)%Z.
  change (2 ^ 64)%Z with (2 ^ 32 * 2 ^ 32)%Z. rewrite Z.rem_mul_r by lia.
  rewrite Z.add_mod by lia. rewrite (Z.mul_comm (2 ^ 32)), Z_mod_mult, Z.add_0_r, !Z.mod_mod by lia. reflexivity.
Qed.
(** The documented wrap-around of thunk offsets. *)
Theorem casts_agree z : (- 2 ^ 63 <= z < 2 ^ 63)%Z -> as_u32_m z = as_u32 z /\ as_i32_m z = as_i32 z.
Proof.
  intros H. pose proof (cast32_mod z H) as Hc. unfold as_u32_m, as_u32, as_i32_m, as_i32. set (a := cast 32 (bits64 z)) in *.
  pose proof (Z.mod_pos_bound z (2 ^ 32) ltac:(lia)) as Hb. split.
  - change 4294967296%Z with (2 ^ 32)%Z. rewrite <- Hc, N2Z.id. reflexivity.
  - unfold signed_of. change (2 ^ (32 - 1))%N with 2147483648%N. change (2 ^ Z.of_N 32)%Z with 4294967296%Z.
    change (2 ^ 32)%Z with 4294967296%Z in *. destruct (N.ltb_spec a 2147483648).
    + rewrite Z.add_mod, <- Hc by lia. change (2147483648 mod 4294967296)%Z with 2147483648%Z. rewrite Z.mod_small by lia. lia.
    + rewrite Z.add_mod, <- Hc by lia. change (2147483648 mod 4294967296)%Z with 2147483648%Z.
      replace (Z.of_N a + 2147483648)%Z with (Z.of_N a - 2147483648 + 1 * 4294967296)%Z by lia.
      rewrite Z_mod_plus_full, Z.mod_small by lia. lia.
Qed.

Lemma rebased_number_le c d : rebased_to_number c = Some d -> (d <= 15)%N.
Proof.
  unfold rebased_to_number. destruct (is_rebased c) eqn:Hr; [|discriminate]. apply (range_facts 65 80) in Hr.
  change (ch "J") with 74%N. change (ch "A") with 65%N. change (ch "K") with 75%N.
  destruct (N.leb_spec c 74); intros H0; [assert (d = c - 65)%N by congruence|assert (d = 10 + c - 75)%N by congruence]; lia.
Qed.
Lemma table_agrees base i : (base + 25 < 256)%N -> (i < 26)%N ->
  exists r, get_unchecked (table_m base) i = Ok r /\ r = Ok (base + i)%N.
Proof.
  intros Hb Hi. unfold get_unchecked, table_m. rewrite nth_error_map, nth_error_nth' with (d := 0) by (rewrite seq_length; lia).
  rewrite seq_nth by lia. cbn [option_map]. eexists. split; [reflexivity|]. cbn [plus]. rewrite N2Nat.id. apply c_add_ok. change (2 ^ 8)%N with 256%N. lia.
Qed.
Theorem char_literal_agrees s : demangle_char_literal_m s = demangle_char_literal s.
Proof.
  unfold demangle_char_literal_m, demangle_char_literal. apply bind_eq; [reflexivity|]. intros c s1 _. destruct (c =? ch "?")%N.
  2:{ unfold try_u. change (2 ^ 8)%N with 256%N. destruct (c <? 256)%N; reflexivity. }
  apply bind_eq; [reflexivity|]. intros d s2 _. destruct (d =? ch "$")%N.
  - apply bind_eq; [reflexivity|]. intros o s3 _. apply bind_eq; [reflexivity|]. intros [x y] s4 _.
    rewrite (bind_run _ _ _ _ (hexdigit_agrees x)). apply bind_eq; [reflexivity|]. intros c1 s5 H1.
    rewrite (bind_run _ _ _ _ (hexdigit_agrees y)). apply bind_eq; [reflexivity|]. intros c2 s6 _.
    destruct (rebased_to_number x) as [c0|] eqn:Hx; [|discriminate H1]. cbn in H1. injection H1 as -> _.
    apply rebased_number_le in Hx. rewrite (bind_run _ _ (N.shiftl c1 4)); [reflexivity|].
    apply c_shl_ok; [lia|]. change (2 ^ (8 - 4))%N with 16%N. lia.
  - destruct (is_digit d) eqn:Hd.
    + apply digit_facts in Hd. rewrite cast_small by (change (2 ^ 8)%N with 256%N; lia).
      rewrite (bind_run _ _ (d - ch "0")%N) by (apply c_sub_ok; change (ch "0") with 48%N; lia).
      unfold run, get_unchecked. destruct (nth_error _ _); reflexivity.
    + destruct (is_lower d) eqn:Hl.
      * apply (range_facts 97 122) in Hl. rewrite cast_small by (change (2 ^ 8)%N with 256%N; lia). change (ch "a") with 97%N.
        rewrite (bind_run _ _ (d - 97)%N) by (apply c_sub_ok; lia).
        destruct (table_agrees 0xE1 (d - 97) ltac:(lia) ltac:(lia)) as (r & Hr & ->). rewrite (bind_run _ _ _ _ Hr). reflexivity.
      * destruct (is_upper d) eqn:Hu; [|reflexivity].
        apply (range_facts 65 90) in Hu. rewrite cast_small by (change (2 ^ 8)%N with 256%N; lia). change (ch "A") with 65%N.
        rewrite (bind_run _ _ (d - 65)%N) by (apply c_sub_ok; lia).
        destruct (table_agrees 0xC1 (d - 65) ltac:(lia) ltac:(lia)) as (r & Hr & ->). rewrite (bind_run _ _ _ _ Hr). reflexivity.
Qed.
Lemma bind_ok {A B} (m : M A) (f : A -> M B) s b s' : bind m f s = Ok (b, s') -> exists a s1, m s = Ok (a, s1) /\ f a s1 = Ok (b, s').
Proof. unfold bind. destruct (m s) as [[a s1]|e| |]; try discriminate. intros H. eauto. Qed.
Lemma lor_lt a b k : (a < 2 ^ k)%N -> (b < 2 ^ k)%N -> (N.lor a b < 2 ^ k)%N.
Proof.
  intros Ha Hb. destruct (N.eq_dec (N.lor a b) 0) as [->|Hn]; [apply N.neq_0_lt_0, N.pow_nonzero; lia|].
  apply N.log2_lt_pow2; [lia|]. rewrite N.log2_lor.
  assert (forall x, (x < 2 ^ k)%N -> x = 0%N \/ (N.log2 x < k)%N) as Hx.
  { intros x H. destruct (N.eq_dec x 0) as [->|]; [auto|right]. apply N.log2_lt_pow2; [lia|exact H]. }
  assert (0 < k)%N.
  { destruct (N.eq_dec k 0) as [->|]; [|lia]. change (2 ^ 0)%N with 1%N in *. assert (a = 0%N) by lia. assert (b = 0%N) by lia. subst. cbn in Hn. contradiction. }
  apply N.max_lub_lt; [destruct (Hx a Ha) as [->|]|destruct (Hx b Hb) as [->|]]; assumption || (cbn; lia).
Qed.
(** Bytes are bytes. *)
Theorem char_literal_byte s c s' : demangle_char_literal s = Ok (c, s') -> (c < 256)%N.
Proof.
  unfold demangle_char_literal. intros H. apply bind_ok in H. destruct H as (x & s1 & _ & H). destruct (x =? ch "?")%N.
  2:{ destruct (N.ltb_spec x 256); [|discriminate H]. injection H as <- _. assumption. }
  apply bind_ok in H. destruct H as (d & s2 & _ & H). destruct (d =? ch "$")%N.
  - apply bind_ok in H. destruct H as (o & s3 & _ & H). apply bind_ok in H. destruct H as ([y z] & s4 & _ & H).
    apply bind_ok in H. destruct H as (c1 & s5 & H1 & H). apply bind_ok in H. destruct H as (c2 & s6 & H2 & H).
    destruct (rebased_to_number y) as [c1'|] eqn:E1; [|discriminate H1]. injection H1 as -> _.
    destruct (rebased_to_number z) as [c2'|] eqn:E2; [|discriminate H2]. injection H2 as -> _.
    apply rebased_number_le in E1, E2. assert (c = N.lor (N.shiftl c1 4) c2) as -> by (unfold ret in H; congruence).
    apply (lor_lt _ _ 8); [|change (2 ^ 8)%N with 256%N; lia].
    rewrite N.shiftl_mul_pow2. change (2 ^ 4)%N with 16%N. change (2 ^ 8)%N with 256%N. lia.
  - destruct (is_digit d) eqn:Hd.
    + destruct (nth_error _ _) as [r|] eqn:Hn; [|discriminate H]. injection H as <- _. apply nth_error_In in Hn.
      assert (Forall (fun r => (r < 256)%N) digit_escapes) as F by (unfold digit_escapes; repeat constructor).
      rewrite Forall_forall in F. apply F, Hn.
    + destruct (is_lower d) eqn:Hl.
      * apply (range_facts 97 122) in Hl. assert (c = 0xE1 + (d - 97))%N as -> by (unfold ret in H; change (ch "a") with 97%N in H; congruence). lia.
      * destruct (is_upper d) eqn:Hu; [|discriminate H]. apply (range_facts 65 90) in Hu. assert (c = 0xC1 + (d - 65))%N as -> by (unfold ret in H; change (ch "A") with 65%N in H; congruence). lia.
Qed.
Theorem wchar_literal_agrees s : demangle_wchar_literal_m s = demangle_wchar_literal s.
Proof.
  unfold demangle_wchar_literal_m, demangle_wchar_literal. apply bind_eq; [apply char_literal_agrees|]. intros c1 s1 H1.
  apply bind_eq; [apply char_literal_agrees|]. intros c2 s2 _. apply char_literal_byte in H1.
  rewrite (bind_run _ _ (N.shiftl c1 8)); [reflexivity|]. apply c_shl_ok; [lia|]. exact H1.
Qed.
Theorem escaped_char_agrees c : escaped_char_m c = Ok (escaped_char c).
Proof.
  unfold escaped_char_m, escaped_char. destruct (lookup c escape_table); [reflexivity|]. destruct (in_range _ _ c) eqn:Hr; [|reflexivity].
  apply range_facts in Hr. unfold from_u32_unchecked, scalar. replace (c <? 0xD800)%N with true by (symmetry; apply N.ltb_lt; lia). reflexivity.
Qed.
Theorem translate_agrees c g s : translate_intrinsic_m c g s = translate_intrinsic c g s.
Proof.
  unfold translate_intrinsic_m, translate_intrinsic. destruct (is_digit c) eqn:Hd.
  - apply digit_facts in Hd. cbn [orb]. cbv zeta. rewrite cast_small by (change (2 ^ 8)%N with 256%N; lia).
    assert (is_digit c = true) as -> by (unfold is_digit, in_range; apply andb_true_iff; split; apply N.leb_le; cbn; lia).
    rewrite (bind_run _ _ (c - ch "0")%N) by (apply c_sub_ok; change (ch "0") with 48%N; lia).
    unfold run, get_unchecked. destruct (nth_error _ _); reflexivity.
  - cbn [orb]. destruct (is_upper c) eqn:Hu; [|reflexivity]. apply (range_facts 65 90) in Hu. cbv zeta. rewrite cast_small by (change (2 ^ 8)%N with 256%N; lia). rewrite Hd.
    unfold bind at 1. rewrite (bind_run _ _ (c - ch "A")%N) by (apply c_sub_ok; change (ch "A") with 65%N; lia).
    unfold run at 1. rewrite c_add_ok by (change (2 ^ 8)%N with 256%N; lia).
    unfold run, get_unchecked. destruct (nth_error _ _); reflexivity.
Qed.
Theorem back_ref_agrees s : demangle_back_ref_name_m s = demangle_back_ref_name s.
Proof.
  unfold demangle_back_ref_name_m, demangle_back_ref_name. unfold bind at 1. symmetry. unfold bind at 1. symmetry.
  destruct (eat_if is_digit s) as [[o s1]|e| |] eqn:He; try reflexivity. destruct o as [c|]; [|reflexivity].
  assert (is_digit c = true) as Hd.
  { unfold eat_if, lift, try_consume_char_if in He. destruct (ms_str (s_ms s)) as [|x t]; [discriminate He|].
    destruct (is_digit x) eqn:Hx.
    - destruct (ms_drop _ _ _) as [m'|e| |]; [|discriminate He..]. assert (c = x) as -> by congruence. exact Hx.
    - cbn in He. discriminate He. }
  apply digit_facts in Hd. cbn [ok_or]. unfold bind at 1. unfold ret at 1. symmetry. unfold bind at 1. unfold ret at 1. symmetry.
  rewrite (bind_run _ _ (c - ch "0")%N); [reflexivity|]. rewrite cast_small by (change (2 ^ 8)%N with 256%N; lia). apply c_sub_ok. change (ch "0") with 48%N. lia.
Qed.
Lemma resolve_names_state l : forall s r s', resolve_names l s = Ok (r, s') -> s' = s.
Proof.
  induction l as [|h l IH]; intros s r s' H; cbn [resolve_names] in H; [injection H as _ <-; reflexivity|].
  apply bind_ok in H. destruct H as (n & s1 & H1 & H). unfold res_ in H1. destruct (resolve _ _ _); [|discriminate H1]. injection H1 as -> <-.
  destruct n; try discriminate H. apply bind_ok in H. destruct H as (r2 & s2 & H2 & H). injection H as _ <-. eapply IH, H2.
Qed.
Theorem memorize_agrees E name s : memorize_string_m E name s = memorize_string E name s.
Proof.
  unfold memorize_string_m, memorize_string. unfold bind at 1, get at 1. symmetry. unfold bind at 1, get at 1. symmetry.
  destruct (10 <=? length (s_names s)) eqn:Hl; [reflexivity|]. apply bind_eq; [reflexivity|]. intros known s1 H1. apply resolve_names_state in H1. subst s1.
  destruct (existsb _ known); [reflexivity|]. apply bind_eq; [reflexivity|]. intros h s2 H2. unfold intern in H2.
  destruct (_ <? _)%N; [discriminate H2|]. injection H2 as _ <-. unfold bind at 1, get at 1. cbn [s_names set_store].
  unfold bind, run, push_unchecked. apply Nat.leb_gt in Hl. apply Nat.ltb_lt in Hl. rewrite Hl. reflexivity.
Qed.

(** The literals tried are not empty, so they have a last character; of the consumed one, the
    number of offsets is found. *)
Lemma eat_first_in l : forall s p s', eat_first l s = Ok (Some p, s') -> In p l.
Proof.
  induction l as [|x l IH]; intros s p s' H; cbn [eat_first] in H; [discriminate H|].
  apply bind_ok in H. destruct H as (b & s1 & _ & H). destruct b; [injection H as <- _; left; reflexivity|right; eapply IH, H].
Qed.
Theorem inheritance_agrees (auto : bool) s p s' :
  eat_first (if auto then [L "1"; L "H"; L "I"; L "J"] else [L "$1"; L "$H"; L "$I"; L "$J"]) s = Ok (Some p, s') ->
  inheritance_count_m p = Ok (inheritance_count p) /\ inheritance_count p <> None.
Proof. intros H. apply eat_first_in in H. destruct auto; cbn [In] in H; repeat (destruct H as [<-|H]; [split; [reflexivity|discriminate]|]); contradiction. Qed.
Theorem data_member_agrees (auto : bool) s p s' :
  eat_first (if auto then [L "F"; L "G"] else [L "$F"; L "$G"]) s = Ok (Some p, s') ->
  data_member_count_m p = Ok (data_member_count p) /\ data_member_count p <> None.
Proof. intros H. apply eat_first_in in H. destruct auto; cbn [In] in H; repeat (destruct H as [<-|H]; [split; [reflexivity|discriminate]|]); contradiction. Qed.

Section WidthAgrees.
  Variable W : N.
  Hypothesis HW : (16 <= W)%N.
  Lemma small_fits n : (n < 2 ^ 16)%N -> (n < 2 ^ W)%N.
  Proof. intros H. eapply N.lt_le_trans; [exact H|]. apply N.pow_le_mono_r; lia. Qed.

  (** The node cache: an index is far from the largest address. *)
  Lemma intern_agrees E n s : e_nodes E = (2 ^ 11)%N -> (N.of_nat (length (s_store s)) <= 2 ^ 11)%N -> intern_m W n s = intern E n s.
  Proof.
    intros HE Hl. unfold intern_m, intern. rewrite HE. change (2 ^ 11)%N with 2048%N in *. rewrite Nat2N.inj_add. change (N.of_nat 1) with 1%N.
    rewrite c_add_ok by (apply small_fits; change (2 ^ 16)%N with 65536%N; lia). cbn [rthen].
    destruct (N.ltb_spec 2048 (N.of_nat (length (s_store s)) + 1)); [reflexivity|]. cbv zeta. rewrite app_length. cbn [length].
    rewrite c_sub_ok by lia. cbn [rthen]. unfold nonmax_unchecked.
    assert (65536 <= 2 ^ W)%N by (change 65536%N with (2 ^ 16)%N; apply N.pow_le_mono_r; lia).
    destruct (N.eqb_spec (N.of_nat (length (s_store s) + 1) - 1) (2 ^ W - 1)); [lia|]. cbn [rthen].
    replace (N.to_nat (N.of_nat (length (s_store s) + 1) - 1)) with (length (s_store s)) by lia. reflexivity.
  Qed.
  Lemma intern_bound E n s h s' : intern E n s = Ok (h, s') -> (N.of_nat (length (s_store s')) <= e_nodes E)%N.
  Proof.
    unfold intern. destruct (N.ltb_spec (e_nodes E) (N.of_nat (length (s_store s) + 1))); [discriminate|].
    intros H0. assert (s' = set_store (s_store s ++ [n]) s) as -> by congruence. cbn [set_store s_store]. rewrite app_length. cbn [length]. lia.
  Qed.

  Lemma nulls_agree bytes : forall a, (a + N.of_nat (length bytes) < 2 ^ W)%N ->
    fold_left (fun r b => x <~ r ;; c_add W x (if (b =? 0)%N then 1 else 0)%N) bytes (Ok a) =
    Ok (a + N.of_nat (length (filter (fun b => (b =? 0)%N) bytes)))%N.
  Proof.
    induction bytes as [|b bytes IH]; intros a H; cbn [fold_left filter length] in *; [f_equal; lia|]. cbn [rthen].
    rewrite Nat2N.inj_succ in H. destruct (b =? 0)%N; rewrite c_add_ok by lia; rewrite IH by lia; cbn [length]; f_equal; lia.
  Qed.
  Lemma guess_agrees bytes num : length bytes <= 128 -> guess_m W bytes num = Ok (guess_char_byte_size bytes num).
  Proof.
    intros Hl. unfold guess_m, guess_char_byte_size. destruct (num =? 0)%N; [reflexivity|]. destruct (num mod 2 =? 1)%N; [reflexivity|].
    destruct (num <? 32)%N; [reflexivity|]. rewrite nulls_agree by (apply small_fits; change (2 ^ 16)%N with 65536%N; lia). cbn [rthen].
    rewrite c_mul_ok by (apply small_fits; change (2 ^ 16)%N with 65536%N; lia). cbn [rthen]. cbv zeta.
    set (e := length (filter _ bytes)). set (n := length bytes) in *.
    assert (forall x, (N.of_nat x / 3 <=? 0 + N.of_nat e)%N = (x / 3 <=? e)) as Hdiv.
    { intros x. change 3%N with (N.of_nat 3). rewrite <- Nat2N.inj_div. rewrite N.add_0_l.
      destruct (Nat.leb_spec (x / 3) e); [apply N.leb_le|apply N.leb_gt]; lia. }
    replace (2 * N.of_nat n)%N with (N.of_nat (2 * n)) by lia. rewrite !Hdiv. reflexivity.
  Qed.

  Lemma little_endian_agrees l : forall i r, Forall (fun c => (c < 256)%N) l -> (i + N.of_nat (length l) <= 4)%N ->
    little_endian_m W l i r = Ok (N.lor r (little_endian l i)).
  Proof.
    induction l as [|c l IH]; intros i r Hf Hi; cbn [little_endian_m little_endian]; [rewrite N.lor_0_r; reflexivity|].
    inversion Hf as [|x y Hc Hl]; subst. cbn [length] in Hi. rewrite Nat2N.inj_succ in Hi.
    rewrite c_mul_ok by (apply small_fits; change (2 ^ 16)%N with 65536%N; lia). cbn [rthen].
    rewrite c_shl_ok by first [lia|eapply N.lt_le_trans; [exact Hc|change 256%N with (2 ^ 8)%N; apply N.pow_le_mono_r; lia]]. cbn [rthen].
    rewrite IH by (assumption || lia). rewrite N.lor_assoc. reflexivity.
  Qed.
  Lemma part_bytes a b (l : list N) : Forall (fun c => (c < 256)%N) l -> Forall (fun c => (c < 256)%N) (firstn a (skipn b l)).
  Proof.
    intros H. rewrite <- (firstn_skipn b l) in H. apply Forall_app in H. destruct H as [_ H].
    rewrite <- (firstn_skipn a (skipn b l)) in H. apply Forall_app in H. apply H.
  Qed.
  Lemma decode_agrees bytes idx sz : Forall (fun c => (c < 256)%N) bytes -> idx <= length bytes <= 128 ->
    decode_m W bytes idx sz = Ok (decode_multi_byte_char bytes idx sz).
  Proof.
    intros Hf Hi. unfold decode_m, decode_multi_byte_char. destruct ((sz =? 1) || (sz =? 2) || (sz =? 4)) eqn:Hs; [|reflexivity].
    assert (1 <= sz <= 4) as Hz.
    { destruct (Nat.eqb_spec sz 1); [lia|]. destruct (Nat.eqb_spec sz 2); [lia|]. destruct (Nat.eqb_spec sz 4); [lia|discriminate Hs]. }
    assert (idx * sz <= 512) as Hm by nia. cbv zeta.
    rewrite c_mul_ok by (apply small_fits; change (2 ^ 16)%N with 65536%N; lia). cbn [rthen].
    replace (N.of_nat idx * N.of_nat sz)%N with (N.of_nat (idx * sz)) by lia. rewrite Nat2N.id.
    replace (N.of_nat (length bytes) <? N.of_nat (idx * sz))%N with (length bytes <? idx * sz).
    2:{ destruct (Nat.ltb_spec (length bytes) (idx * sz)); symmetry; [apply N.ltb_lt|apply N.ltb_ge]; lia. }
    destruct (length bytes <? idx * sz); [reflexivity|]. destruct (length (skipn (idx * sz) bytes) <? sz); [reflexivity|].
    rewrite little_endian_agrees.
    - rewrite N.lor_0_l. reflexivity.
    - apply (part_bytes _ _ _ Hf).
    - pose proof (firstn_le_length sz (skipn (idx * sz) bytes)). lia.
  Qed.

  Lemma class_of_agrees (l : list handle) : (N.of_nat (length l) < 2 ^ (W - 1))%N ->
    class_of_m W l = if length l <? 2 then None else nth_error l (length l - 2).
  Proof.
    intros H. unfold class_of_m, wrapping_sub. assert (2 ^ W = 2 * 2 ^ (W - 1))%N as Hp.
    { replace W with (N.succ (W - 1)) at 1 by lia. apply N.pow_succ_r'. }
    destruct (Nat.ltb_spec (length l) 2).
    - replace (2 <=? N.of_nat (length l))%N with false by (symmetry; apply N.leb_gt; lia).
      replace (2 ^ W + N.of_nat (length l) - 2 <? N.of_nat (length l))%N with false; [reflexivity|]. symmetry. apply N.ltb_ge.
      assert (2 ^ 1 <= 2 ^ (W - 1))%N by (apply N.pow_le_mono_r; lia). change (2 ^ 1)%N with 2%N in *. lia.
    - replace (2 <=? N.of_nat (length l))%N with true by (symmetry; apply N.leb_le; lia).
      replace (N.of_nat (length l) - 2 <? N.of_nat (length l))%N with true by (symmetry; apply N.ltb_lt; lia).
      f_equal. lia.
  Qed.

  (** A Rust text has at most [2^(W-1) - 1] bytes; an index into it leaves room. *)
  Lemma find_char_lt x s i : find_char x s = Some i -> i < str_bytes s.
  Proof.
    revert i. induction s as [|c s IH]; intros i H; [discriminate H|]. cbn [find_char] in H. rewrite str_bytes_cons.
    assert (1 <= utf8_len c) by (unfold utf8_len; repeat destruct (_ <? _)%N; lia). destruct (c =? x)%N; [injection H as <-; lia|].
    destruct (find_char x s) as [j|]; [|discriminate H]. injection H as <-. specialize (IH j eq_refl). lia.
  Qed.
  Lemma md5_end_agrees x s stop (locator : bool) : (N.of_nat (str_bytes s) < 2 ^ (W - 1))%N -> find_char x s = Some stop ->
    md5_end_m W stop locator = Ok (N.of_nat (stop + 1), N.of_nat (stop + 3 + (if locator then 6 else 0))).
  Proof.
    intros Hs Hf. apply find_char_lt in Hf. assert (2 ^ W = 2 * 2 ^ (W - 1))%N as Hp.
    { replace W with (N.succ (W - 1)) at 1 by lia. apply N.pow_succ_r'. }
    assert (2 ^ 15 <= 2 ^ (W - 1))%N by (apply N.pow_le_mono_r; lia). change (2 ^ 15)%N with 32768%N in *.
    unfold md5_end_m. rewrite c_add_ok by lia. cbn [rthen]. rewrite c_add_ok by lia. cbn [rthen].
    destruct locator; [rewrite c_add_ok by lia|]; cbn [rthen]; f_equal; f_equal; lia.
  Qed.
  Lemma write_agrees len have : (len < 2 ^ (W - 1))%N -> (have < 2 ^ (W - 1))%N ->
    write_allowed_m W len have = (have + len <? 2 ^ 20)%N.
  Proof.
    intros H1 H2. assert (2 ^ W = 2 * 2 ^ (W - 1))%N as Hp.
    { replace W with (N.succ (W - 1)) at 1 by lia. apply N.pow_succ_r'. }
    unfold write_allowed_m, checked_add. replace (len + have <? 2 ^ W)%N with true by (symmetry; apply N.ltb_lt; lia).
    rewrite N.add_comm. reflexivity.
  Qed.
End WidthAgrees.


(** ** C49 *)
Lemma number_range s n neg s' : demangle_number s = Ok ((n, neg), s') -> (n < 2 ^ 64)%N.
Proof.
  assert (forall fuel c k t r t', (k < 2 ^ 64)%N -> number_loop fuel c k t = Ok (r, t') -> (r < 2 ^ 64)%N) as Hloop.
  { induction fuel as [|fuel IH]; intros c k t r t' Hk H; [discriminate H|]. cbn [number_loop] in H.
    destruct (_ =? _)%N; [unfold ret in H; congruence|]. destruct (is_rebased c); [|discriminate H]. cbv zeta in H.
    destruct (N.ltb_spec (N.shiftl k 4 mod two64 + (c - ch "A")) two64) as [Hlt|]; [|discriminate H].
    apply bind_ok in H. destruct H as (c' & t1 & _ & H). eapply IH; [|exact H]. exact Hlt. }
  unfold demangle_number. intros H. apply bind_ok in H. destruct H as (b & s1 & _ & H). apply bind_ok in H. destruct H as (c & s2 & _ & H).
  destruct (is_digit c) eqn:Hd.
  - apply digit_facts in Hd. assert (n = c - ch "0" + 1)%N as -> by (unfold ret in H; congruence). change (ch "0") with 48%N. change (2 ^ 64)%N with 18446744073709551616%N. lia.
  - apply bind_ok in H. destruct H as (t & s3 & _ & H). apply bind_ok in H. destruct H as (r & s4 & Hr & H).
    assert (n = r) as -> by (unfold ret in H; congruence). eapply Hloop; [|exact Hr]. lia.
Qed.
Lemma signed_range s z s' : demangle_signed s = Ok (z, s') -> (- 2 ^ 63 < z < 2 ^ 63)%Z.
Proof.
  unfold demangle_signed. intros H. apply bind_ok in H. destruct H as ([n neg] & s1 & _ & H).
  destruct (N.ltb_spec n two63) as [Hn|]; [|discriminate H]. change two63 with 9223372036854775808%N in Hn.
  assert (z = if neg then - Z.of_N n else Z.of_N n)%Z as -> by (unfold ret in H; congruence). destruct neg; lia.
Qed.

(** C49 (arithmetic).  With the fixed-width, overflow-checked arithmetic and the truncating casts of
    the source, the leaf functions do the same as the functions of the model, on every state: no
    [+], [-], [*], [<<] or negation overflows, and no cast loses bits except those of thunk offsets
    to 32 bits, which wrap around.  So debug and release builds agree. *)
Theorem machine_integers_agree : forall s : st,
  demangle_number_m s = demangle_number s /\
  demangle_signed_m s = demangle_signed s /\
  demangle_char_literal_m s = demangle_char_literal s /\
  demangle_wchar_literal_m s = demangle_wchar_literal s /\
  demangle_back_ref_name_m s = demangle_back_ref_name s /\
  (forall c g, translate_intrinsic_m c g s = translate_intrinsic c g s) /\
  (forall c, hexdigit_m c = Ok (rebased_to_number c)) /\
  (forall z s', demangle_signed s = Ok (z, s') -> as_u32_m z = as_u32 z /\ as_i32_m z = as_i32 z) /\
  (forall a b, saturating_sub a b = (a - b)%N).
Proof.
  intros s. repeat (split; [first [apply number_agrees|apply signed_agrees|apply char_literal_agrees|apply wchar_literal_agrees|
    apply back_ref_agrees|intros c g; apply translate_agrees|apply hexdigit_agrees|
    intros z s' H; apply casts_agree; apply signed_range in H; lia]|]).
  intros a b. unfold saturating_sub. destruct (N.leb_spec b a); lia.
Qed.
Print Assumptions machine_integers_agree.

(** So on every state the parser can be in (the number of characters left is right) they return a
    value or an error: no overflow, no table index out of range. *)
Theorem machine_functions_return : forall s : st, chars_ok s ->
  demangle_number_m s <> Panic /\ demangle_signed_m s <> Panic /\ demangle_char_literal_m s <> Panic /\
  demangle_wchar_literal_m s <> Panic /\ demangle_back_ref_name_m s <> Panic /\
  (forall c g, translate_intrinsic_m c g s <> Panic) /\ (forall c, hexdigit_m c <> Panic) /\ (forall c, escaped_char_m c <> Panic).
Proof.
  intros s Hs. assert (forall A (m : M A) Q, wp (fun _ => True) m Q s -> m s <> Panic) as Hw.
  { intros A m Q H E. unfold wp in H. rewrite E in H. exact H. }
  rewrite number_agrees, signed_agrees, char_literal_agrees, wchar_literal_agrees, back_ref_agrees.
  repeat (split; [first [eapply Hw; first [apply lex_number|apply lex_signed|apply lex_char_literal|apply lex_wchar_literal]; solve [auto]|idtac]|]).
  - eapply (Hw _ _ (fun _ _ => True)). unfold demangle_back_ref_name. apply wp_bind. eapply wp_mono; [apply lex_eat_if; auto|].
    intros o s1 _. cbv beta. apply wp_bind, wp_ok_or; [exact I|]. intros c _. apply wp_bind, wp_get, wp_ok_or; [exact I|auto].
  - intros c g. rewrite translate_agrees. eapply Hw. apply lex_translate; auto.
  - intros c. rewrite hexdigit_agrees. discriminate.
  - intros c. rewrite escaped_char_agrees. discriminate.
Qed.
Print Assumptions machine_functions_return.
Example machine_functions_example : demangle_number_m (init_st (L "BAAAAAAAAAAAAAAAA@")) =
    Ok ((0%N, false), st_at [] (init_st (L "BAAAAAAAAAAAAAAAA@"))) /\
  demangle_char_literal_m (init_st (L "?z")) = Ok (250%N, st_at [] (init_st (L "?z"))).
Proof. split; vm_compute; reflexivity. Qed.

(** C49 (unchecked operations).  Every operation in an [unsafe] block has its precondition: the
    lookups are in range (they are part of the functions above and of [escaped_char_m]), the name
    table has room, the literals compared have a last character, the index of a node is not the
    largest address, and the buffer taken for a string without checking is empty. *)
Theorem unchecked_operations_are_safe :
  (forall c, escaped_char_m c = Ok (escaped_char c)) /\
  (forall E name s, memorize_string_m E name s = memorize_string E name s) /\
  (forall (auto : bool) s p s',
    eat_first (if auto then [L "1"; L "H"; L "I"; L "J"] else [L "$1"; L "$H"; L "$I"; L "$J"]) s = Ok (Some p, s') ->
    inheritance_count_m p = Ok (inheritance_count p) /\ inheritance_count p <> None) /\
  (forall (auto : bool) s p s',
    eat_first (if auto then [L "F"; L "G"] else [L "$F"; L "$G"]) s = Ok (Some p, s') ->
    data_member_count_m p = Ok (data_member_count p) /\ data_member_count p <> None) /\
  (forall W E n s, (16 <= W)%N -> e_nodes E = (2 ^ 11)%N -> (N.of_nat (length (s_store s)) <= 2 ^ 11)%N ->
    intern_m W n s = intern E n s /\
    forall h s', intern E n s = Ok (h, s') -> (N.of_nat (length (s_store s')) <= 2 ^ 11)%N) /\
  (forall b, from_utf8_unchecked (b_bytes (clear b)) = Ok []).
Proof.
  split; [exact escaped_char_agrees|]. split; [exact memorize_agrees|]. split; [exact inheritance_agrees|]. split; [exact data_member_agrees|].
  split; [|reflexivity]. intros W E n s HW HE Hl. split; [apply intern_agrees; assumption|]. intros h s' H. apply (intern_bound W HW) in H. rewrite HE in H. exact H.
Qed.
Print Assumptions unchecked_operations_are_safe.

(** C49 (sizes).  On a machine with addresses of 16 bits or more: the arithmetic on sizes, lengths
    and indices does not overflow, for texts as long as a Rust text can be ([2^(W-1) - 1] bytes) and
    the up to 128 bytes a string literal stores. *)
Theorem sizes_do_not_overflow : forall W : N, (16 <= W)%N ->
  (forall bytes num, length bytes <= 128 -> guess_m W bytes num = Ok (guess_char_byte_size bytes num)) /\
  (forall bytes idx sz, Forall (fun c => (c < 256)%N) bytes -> idx <= length bytes <= 128 ->
    decode_m W bytes idx sz = Ok (decode_multi_byte_char bytes idx sz)) /\
  (forall l : list handle, (N.of_nat (length l) < 2 ^ (W - 1))%N ->
    class_of_m W l = if length l <? 2 then None else nth_error l (length l - 2)) /\
  (forall x s stop (locator : bool), (N.of_nat (str_bytes s) < 2 ^ (W - 1))%N -> find_char x s = Some stop ->
    md5_end_m W stop locator = Ok (N.of_nat (stop + 1), N.of_nat (stop + 3 + (if locator then 6 else 0)))) /\
  (forall len have, (len < 2 ^ (W - 1))%N -> (have < 2 ^ (W - 1))%N ->
    write_allowed_m W len have = (have + len <? 2 ^ 20)%N).
Proof.
  intros W HW. split; [intros; apply guess_agrees; assumption|]. split; [intros; apply decode_agrees; assumption|].
  split; [intros; apply class_of_agrees; assumption|]. split; [intros x s stop locator H1 H2; apply (md5_end_agrees W HW x s); assumption|].
  intros; apply write_agrees; assumption.
Qed.
Print Assumptions sizes_do_not_overflow.

(** The checks are not empty: without its guard each operation would fail. *)
Example machine_example :
  hexdigit_m (ch "P") = Ok (Some 15%N) /\ c_sub (ch "@") (ch "A") = Panic /\ c_add 8 10 250 = Panic /\
  get_unchecked digit_escapes 10 = Panic /\ from_u32_unchecked 0xD800 = Panic /\ push_unchecked 10 (seq 0 10) 10 = Panic /\
  inheritance_count_m [] = Panic /\ nonmax_unchecked 16 65535 = Panic /\ from_utf8_unchecked [0xFF]%N = Panic /\
  decode_m 16 [1; 2; 3; 4]%N 0 4 = Ok (Some 0x4030201%N) /\ as_u32_m (- 1) = 0xFFFFFFFF%N /\ as_i32_m 0x80000001 = (- 0x7FFFFFFF)%Z /\
  class_of_m 64 [7] = None /\ md5_end_m 3 7 true = Panic.
Proof. repeat split; vm_compute; reflexivity. Qed.
