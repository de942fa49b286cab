(** C48: [MangledString] on the bytes it is stored in.

    MString.v models the parser's cursor as a list of characters.  The code keeps a [&str],
    a sequence of bytes, and cuts it at byte offsets: a cut inside a character panics, and
    a decoder that runs past the end is undefined behaviour.  Here the methods of
    /repo/src/mangled_string.rs are modelled again, on bytes, with the primitives of
    [core::str] they call; the theorems say that for every valid input the two models
    cannot be told apart. *)
From Verif Require Import MString Utf8.

(** ** [core::str] on bytes *)

(** [u8::is_utf8_char_boundary]: [(self as i8) >= -0x40]. *)
Definition lead (b : N) : bool := negb (is_cont b).

(** [str::is_char_boundary]. *)
Definition boundary (n : nat) (bs : list N) : bool :=
  if n =? 0 then true
  else if length bs <=? n then n =? length bs
  else lead (nth n bs 0%N).

(** [&s[n..]] and [&s[..n]]: panic off a boundary. *)
Definition from_b (n : nat) (bs : list N) : res (list N) := if boundary n bs then Ok (skipn n bs) else Panic.
Definition upto_b (n : nat) (bs : list N) : res (list N) := if boundary n bs then Ok (firstn n bs) else Panic.

(** [str::split_at_checked]. *)
Definition split_at_checked (n : nat) (bs : list N) : option (list N * list N) :=
  if boundary n bs then Some (firstn n bs, skipn n bs) else None.

(** [str::starts_with(&str)]: a comparison of bytes. *)
Fixpoint bytes_start (p bs : list N) : bool :=
  match p, bs with
  | [], _ => true
  | x :: p, y :: bs => (x =? y)%N && bytes_start p bs
  | _ :: _, [] => false
  end.

(** [Chars::count]: the bytes that are not continuation bytes. *)
Definition count_chars (bs : list N) : nat := length (filter lead bs).

(** [core::str::validations::next_code_point]: no validation, and a missing byte is
    undefined behaviour ([Panic]). *)
Definition next_char (bs : list N) : res (option (N * list N)) :=
  match bs with
  | [] => Ok None
  | x :: r =>
    if (x <? 0x80)%N then Ok (Some (x, r))
    else match r with
    | [] => Panic
    | y :: r =>
      if (x <? 0xE0)%N then Ok (Some ((x mod 32) * 64 + y mod 64, r))%N
      else match r with
      | [] => Panic
      | z :: r =>
        let yz := ((y mod 64) * 64 + z mod 64)%N in
        if (x <? 0xF0)%N then Ok (Some ((x mod 32) * 4096 + yz, r))%N
        else match r with
        | [] => Panic
        | w :: r => Ok (Some ((x mod 8) * 262144 + (yz * 64 + w mod 64), r))%N
        end
      end
    end
  end.

(** [core::str::validations::next_code_point_reverse], on the reversed bytes. *)
Definition next_char_back (rbs : list N) : res (option N) :=
  match rbs with
  | [] => Ok None
  | w :: r =>
    if (w <? 0x80)%N then Ok (Some w)
    else match r with
    | [] => Panic
    | z :: r =>
      if negb (is_cont z) then Ok (Some ((z mod 32) * 64 + w mod 64))%N
      else match r with
      | [] => Panic
      | y :: r =>
        if negb (is_cont y) then Ok (Some (((y mod 16) * 64 + z mod 64) * 64 + w mod 64))%N
        else match r with
        | [] => Panic
        | x :: _ => Ok (Some ((((x mod 8) * 64 + y mod 64) * 64 + z mod 64) * 64 + w mod 64))%N
        end
      end
    end
  end.

Definition rbnd {A B} (x : res A) (k : A -> res B) : res B :=
  match x with Ok a => k a | Err e => Err e | Panic => Panic | Fuel => Fuel end.
Local Notation "'do*' x <- e ; k" := (rbnd e (fun x => k)) (at level 200, x pattern, e at level 100, k at level 200).

(** [CharIndices]: the offset of the front and the bytes left; [next]. *)
Definition cursor := (nat * list N)%type.
Definition char_indices (bs : list N) : cursor := (0, bs).
Definition ci_next (it : cursor) : res (option (nat * N) * cursor) :=
  let (off, bs) := it in
  do* o <- next_char bs;
  Ok match o with
     | None => (None, it)
     | Some (c, r) => (Some (off, c), (off + (length bs - length r), r))
     end.

(** ** The methods *)

(** /repo/src/mangled_string.rs:18-22. *)
Record bstring := mkBS { bs_bytes : list N; bs_chars : nat }.

(** [new], 25-30. *)
Definition bs_new (bs : list N) : bstring := mkBS bs (count_chars bs).

(** [self.string = ..; self.chars -= n]. *)
Definition bs_drop (b : bstring) (rest : list N) (n : nat) : res bstring :=
  if n <=? bs_chars b then Ok (mkBS rest (bs_chars b - n)) else Panic.

(** [iter.next().map_or("", |(i, _)| &self.string[i..])]. *)
Definition rest_from (it : cursor) (bs : list N) : res (list N) :=
  do* (o, _) <- ci_next it;
  match o with None => Ok [] | Some (i, _) => from_b i bs end.

(** [try_consume_char_if], 52-63. *)
Definition b_consume_if (f : N -> bool) (b : bstring) : res (option N * bstring) :=
  do* (o, it) <- ci_next (char_indices (bs_bytes b));
  match o with
  | None => Ok (None, b)
  | Some (_, c) =>
    if f c then do* rest <- rest_from it (bs_bytes b); do* b' <- bs_drop b rest 1; Ok (Some c, b')
    else Ok (None, b)
  end.

(** [try_consume], 34-40. *)
Definition b_consume (b : bstring) : res (option N * bstring) :=
  do* (o, it) <- ci_next (char_indices (bs_bytes b));
  match o with
  | None => Ok (None, b)
  | Some (_, c) => do* rest <- rest_from it (bs_bytes b); do* b' <- bs_drop b rest 1; Ok (Some c, b')
  end.

(** [try_consume_char], 42-50. *)
Definition b_consume_char (e : N) (b : bstring) : res (option N * bstring) :=
  do* (o, it) <- ci_next (char_indices (bs_bytes b));
  match o with
  | None => Ok (None, b)
  | Some (_, c) =>
    if (c =? e)%N then do* rest <- rest_from it (bs_bytes b); do* b' <- bs_drop b rest 1; Ok (Some e, b')
    else Ok (None, b)
  end.

(** [try_consume_n_bytes], 65-71. *)
Definition b_consume_bytes (n : nat) (b : bstring) : res (option (list N) * bstring) :=
  match split_at_checked n (bs_bytes b) with
  | None => Ok (None, b)
  | Some (first, rest) => do* b' <- bs_drop b rest (count_chars first); Ok (Some first, b')
  end.

(** [try_consume_n_chars], 73-83, for every [N]: the loop that fills the array. *)
Fixpoint take_chars (n : nat) (it : cursor) : res (option (list N) * cursor) :=
  match n with
  | O => Ok (Some [], it)
  | S n =>
    do* (o, it) <- ci_next it;
    match o with
    | None => Ok (None, it)
    | Some (_, c) =>
      do* (l, it) <- take_chars n it;
      Ok (match l with Some l => Some (c :: l) | None => None end, it)
    end
  end.
Definition b_consume_chars (n : nat) (b : bstring) : res (option (list N) * bstring) :=
  do* (o, it) <- take_chars n (char_indices (bs_bytes b));
  match o with
  | None => Ok (None, b)
  | Some l => do* rest <- rest_from it (bs_bytes b); do* b' <- bs_drop b rest n; Ok (Some l, b')
  end.

(** [try_consume_str], 85-91. *)
Definition b_consume_str (p : list N) (b : bstring) : res (option (list N) * bstring) :=
  if bytes_start p (bs_bytes b)
  then do* rest <- from_b (length p) (bs_bytes b); do* b' <- bs_drop b rest (count_chars p); Ok (Some p, b')
  else Ok (None, b).

(** [find_char], 99-106; every step takes at least a byte. *)
Fixpoint find_from (fuel : nat) (x : N) (it : cursor) : res (option nat) :=
  match fuel with
  | O => Fuel
  | S fuel =>
    do* (o, it) <- ci_next it;
    match o with
    | None => Ok None
    | Some (i, c) => if (c =? x)%N then Ok (Some i) else find_from fuel x it
    end
  end.
Definition b_find (x : N) (b : bstring) : res (option nat) :=
  find_from (S (length (bs_bytes b))) x (char_indices (bs_bytes b)).

(** [first_char], 108-110; [last_char], 116-118. *)
Definition b_first (b : bstring) : res (option N) :=
  do* o <- next_char (bs_bytes b); Ok match o with Some (c, _) => Some c | None => None end.
Definition b_last (b : bstring) : res (option N) := next_char_back (rev (bs_bytes b)).

(** [is_empty], 112-114; [len_bytes], 120-122; [len_chars], 124-126; [starts_with], 139-141. *)
Definition b_empty (b : bstring) : bool := length (bs_bytes b) =? 0.
Definition b_len (b : bstring) : nat := length (bs_bytes b).
Definition b_starts (p : list N) (b : bstring) : bool := bytes_start p (bs_bytes b).

(** [slice(..n)], 128-137. *)
Definition b_slice (n : nat) (b : bstring) : res bstring :=
  do* bs <- upto_b n (bs_bytes b); Ok (mkBS bs (count_chars bs)).

(** The [while let] loop of [starts_with_local_scope_pattern]. *)
Fixpoint all_rebased (fuel : nat) (b : bstring) : res bool :=
  match fuel with
  | O => Fuel
  | S fuel =>
    do* (o, b) <- b_consume b;
    match o with
    | None => Ok true
    | Some c => if is_rebased c then all_rebased fuel b else Ok false
    end
  end.

(** [starts_with_local_scope_pattern], 145-191; [unwrap_unchecked] on [None] is [Panic]. *)
Definition b_local_scope (b : bstring) : res bool :=
  do* (q, b) <- b_consume_char (ch "?") b;
  match q with
  | None => Ok false
  | Some _ =>
    do* e <- b_find (ch "?") b;
    match e with
    | None => Ok false
    | Some e =>
      do* cand <- b_slice e b;
      if b_empty cand then Ok false
      else if bs_chars cand =? 1
      then do* o <- b_first cand;
           match o with None => Panic | Some c => Ok ((c =? ch "@")%N || is_digit c) end
      else
        do* l <- b_last cand;
        match l with
        | None => Ok false
        | Some c =>
          if (c =? ch "@")%N
          then if 1 <=? b_len cand
               then do* cand <- b_slice (b_len cand - 1) cand;
                    do* (h, cand) <- b_consume_if (in_range (ch "B") (ch "P")) cand;
                    match h with
                    | None => Ok false
                    | Some _ => all_rebased (S (b_len cand)) cand
                    end
               else Panic
          else Ok false
        end
    end
  end.

(** [is_array_type] 193-195, [is_custom_type] 197-199, [is_function_type] 201-203,
    [is_pointer_type] 246-258, [is_tag_type] 260-266. *)
Definition b_first_is (f : N -> bool) (b : bstring) : res bool :=
  do* o <- b_first b; Ok match o with Some c => f c | None => false end.
Definition b_array (b : bstring) : res bool := b_first_is (fun c => c =? ch "Y")%N b.
Definition b_custom (b : bstring) : res bool := b_first_is (fun c => c =? ch "?")%N b.
Definition b_function (b : bstring) : res bool :=
  Ok (b_starts (utf8 (L "$$A8@@")) b || b_starts (utf8 (L "$$A6")) b).
Definition b_pointer (b : bstring) : res bool :=
  if b_starts (utf8 (L "$$Q")) b then Ok true else b_first_is (one_of (L "APQRS")) b.
Definition b_tag (b : bstring) : res bool := b_first_is (one_of (L "TUVW")) b.

(** [is_member_pointer], 205-244. *)
Definition b_member (b : bstring) : res (option bool) :=
  do* (o, b) <- b_consume b;
  match o with
  | None => Ok None
  | Some c =>
    if one_of (L "$A") c then Ok (Some false)
    else if one_of (L "PQRS") c
    then
      do* (d, b) <- b_consume_if is_digit b;
      match d with
      | Some d => Ok (if (d =? ch "6")%N then Some false else if (d =? ch "8")%N then Some true else None)
      | None =>
        do* (_, b) <- b_consume_char (ch "E") b;
        do* (_, b) <- b_consume_char (ch "I") b;
        do* (_, b) <- b_consume_char (ch "F") b;
        if b_empty b then Ok None
        else do* o <- b_first b;
             Ok match o with
                | Some c => if one_of (L "ABCD") c then Some false else if one_of (L "QRST") c then Some true else None
                | None => None
                end
      end
    else Ok None
  end.

(** The text of [Demangler::demangle_md5_name], /repo/src/demangler.rs:372-413. *)
Definition b_md5 (b : bstring) : res (option (list N) * bstring) :=
  let copy := bs_bytes b in
  do* (p, b) <- b_consume_str (utf8 (L "??@")) b;
  match p with
  | None => Ok (None, b)
  | Some p =>
    do* stop <- b_find (ch "@") b;
    match stop with
    | None => Ok (None, b)
    | Some stop =>
      do* (o, b) <- b_consume_bytes (stop + 1) b;
      match o with
      | None => Ok (None, b)
      | Some _ =>
        do* (r4, b) <- b_consume_str (utf8 (L "??_R4@")) b;
        let stop := stop + length p + match r4 with Some q => length q | None => 0 end in
        do* md5 <- upto_b (stop + 1) copy;
        Ok (Some md5, b)
      end
    end
  end.

(** ** Encoded characters *)
Definition scalars (s : str) : Prop := Forall (fun c => scalar c = true) s.
Lemma scalar_lt c : scalar c = true -> (c < 1114112)%N.
Proof.
  unfold scalar. intros H. apply orb_true_iff in H. destruct H as [H|H]; [apply N.ltb_lt in H; lia|].
  apply andb_true_iff in H. destruct H as [_ H]. apply N.ltb_lt in H. exact H.
Qed.
Lemma cont_of m : (m < 64)%N -> is_cont (128 + m) = true.
Proof. intros H. nb. Qed.
Lemma char_head c : scalar c = true -> exists h t, utf8_char c = h :: t /\ lead h = true /\ Forall (fun b => lead b = false) t.
Proof.
  intros Hc. apply scalar_lt in Hc.
  assert (Hm : forall x, lead (128 + x mod 64)%N = false).
  { intros x. unfold lead. rewrite cont_of; [reflexivity|]. apply N.mod_lt. lia. }
  assert (Hl : forall x, (192 <= x)%N -> lead x = true).
  { intros x Hx. unfold lead, is_cont. replace (x <? 192)%N with false by (symmetry; apply N.ltb_ge; lia).
    rewrite andb_false_r. reflexivity. }
  unfold utf8_char.
  destruct (c <? 128)%N eqn:E1; [|destruct (c <? 2048)%N eqn:E2; [|destruct (c <? 65536)%N eqn:E3]];
    (eexists; eexists; split; [reflexivity|]; split).
  - unfold lead, is_cont. apply N.ltb_lt in E1. replace (128 <=? c)%N with false by (symmetry; apply N.leb_gt; lia). reflexivity.
  - constructor.
  - apply Hl, N.le_trans with (2 := N.le_add_r _ _); discriminate.
  - repeat constructor; apply Hm.
  - apply Hl, N.le_trans with (2 := N.le_add_r _ _); discriminate.
  - repeat constructor; apply Hm.
  - apply Hl, N.le_trans with (2 := N.le_add_r _ _); discriminate.
  - repeat constructor; apply Hm.
Qed.
Lemma utf8_cons c s : utf8 (c :: s) = utf8_char c ++ utf8 s. Proof. reflexivity. Qed.
Lemma count_app a b : count_chars (a ++ b) = count_chars a + count_chars b.
Proof. unfold count_chars. rewrite filter_app, app_length. reflexivity. Qed.
Lemma count_cont t : Forall (fun b => lead b = false) t -> count_chars t = 0.
Proof. unfold count_chars. induction 1 as [|b t Hb _ IH]; [reflexivity|]. cbn [filter]. rewrite Hb. exact IH. Qed.
Lemma count_utf8 s : scalars s -> count_chars (utf8 s) = length s.
Proof.
  induction 1 as [|c s Hc _ IH]; [reflexivity|]. rewrite utf8_cons, count_app, IH.
  destruct (char_head c Hc) as (h & t & -> & Hh & Ht). unfold count_chars at 1. cbn [filter]. rewrite Hh.
  cbn [length]. fold (count_chars t). rewrite (count_cont t Ht). reflexivity.
Qed.

(** ** Boundaries *)
Lemma nth_cont t n : Forall (fun b => lead b = false) t -> n < length t -> lead (nth n t 0%N) = false.
Proof. intros H Hn. rewrite Forall_forall in H. apply H, nth_In, Hn. Qed.
Lemma utf8_nil_or s : scalars s -> utf8 s = [] /\ s = [] \/ exists h t, utf8 s = h :: t /\ lead h = true.
Proof.
  destruct 1 as [|c s Hc _]; [left; split; reflexivity|right].
  destruct (char_head c Hc) as (h & t & E & Hh & _). rewrite utf8_cons, E. exists h, (t ++ utf8 s). split; [reflexivity|exact Hh].
Qed.
Lemma boundary_cons c s n : scalar c = true -> scalars s ->
  boundary n (utf8 (c :: s)) = if utf8_len c <=? n then boundary (n - utf8_len c) (utf8 s) else n =? 0.
Proof.
  intros Hc Hs. pose proof (utf8_len_pos c) as Hp. pose proof (utf8_char_len c) as Hl.
  destruct (char_head c Hc) as (h & t & E & Hh & Ht). rewrite utf8_cons, E in *. cbn [length] in Hl.
  unfold boundary. destruct (Nat.leb_spec (utf8_len c) n) as [Hn|Hn].
  - replace (n =? 0) with false by (symmetry; apply Nat.eqb_neq; lia).
    rewrite app_length. cbn [length]. rewrite Hl.
    destruct (Nat.eqb_spec (n - utf8_len c) 0) as [Z|Z].
    + assert (n = utf8_len c) as -> by lia.
      destruct (utf8_nil_or s Hs) as [[E' _]|(h' & t' & E' & Hh')].
      * rewrite E'. cbn [length]. rewrite Nat.add_0_r, Nat.leb_refl, Nat.eqb_refl. reflexivity.
      * rewrite E'. cbn [length]. replace (utf8_len c + S (length t') <=? utf8_len c) with false by (symmetry; apply Nat.leb_gt; lia).
        rewrite app_nth2 by (cbn [length]; lia). cbn [length]. rewrite Hl, Nat.sub_diag. exact Hh'.
    + destruct (Nat.leb_spec (length (utf8 s)) (n - utf8_len c)) as [G|G].
      * replace (utf8_len c + length (utf8 s) <=? n) with true by (symmetry; apply Nat.leb_le; lia).
        destruct (Nat.eqb_spec n (utf8_len c + length (utf8 s))), (Nat.eqb_spec (n - utf8_len c) (length (utf8 s))); try reflexivity; lia.
      * replace (utf8_len c + length (utf8 s) <=? n) with false by (symmetry; apply Nat.leb_gt; lia).
        rewrite app_nth2 by (cbn [length]; lia). cbn [length]. rewrite Hl. reflexivity.
  - destruct (Nat.eqb_spec n 0) as [Z|Z]; [reflexivity|].
    rewrite app_length. cbn [length]. replace (S (length t) + length (utf8 s) <=? n) with false by (symmetry; apply Nat.leb_gt; lia).
    rewrite app_nth1 by (cbn [length]; lia). destruct n as [|n]; [lia|]. cbn [nth]. apply nth_cont; [exact Ht|lia].
Qed.
Lemma split_utf8 s : scalars s -> forall n,
  split_at_checked n (utf8 s) = match split_bytes n s with Some (a, b) => Some (utf8 a, utf8 b) | None => None end.
Proof.
  unfold split_at_checked. induction 1 as [|c s Hc Hs IH]; intros n.
  - destruct n; reflexivity.
  - rewrite boundary_cons by assumption. pose proof (utf8_len_pos c) as Hp. pose proof (utf8_char_len c) as Hl.
    destruct n as [|n].
    + destruct (Nat.leb_spec (utf8_len c) 0); [lia|]. reflexivity.
    + cbn [split_bytes]. destruct (Nat.leb_spec (utf8_len c) (S n)) as [G|G]; [|reflexivity].
      specialize (IH (S n - utf8_len c)). remember (S n - utf8_len c) as k eqn:Ek. destruct (boundary k (utf8 s)).
      * destruct (split_bytes k s) as [[a b]|]; [|discriminate]. injection IH as Ia Ib.
        rewrite !utf8_cons. rewrite firstn_app, skipn_app, Hl, <- Ek, Ia, Ib.
        rewrite firstn_all2 by lia. rewrite skipn_all2 by lia. reflexivity.
      * destruct (split_bytes k s) as [[a b]|]; [discriminate|]. reflexivity.
Qed.
Lemma split_bytes_app a b : split_bytes (str_bytes a) (a ++ b) = Some (a, b).
Proof.
  induction a as [|c a IH]; [destruct b; reflexivity|].
  change (str_bytes (c :: a)) with (utf8_len c + str_bytes a). pose proof (utf8_len_pos c).
  destruct (utf8_len c + str_bytes a) as [|k] eqn:E; [lia|]. cbn [split_bytes app].
  replace (utf8_len c <=? S k) with true by (symmetry; apply Nat.leb_le; lia).
  replace (S k - utf8_len c) with (str_bytes a) by lia. rewrite IH. reflexivity.
Qed.
Lemma split_bytes_parts n s a b : split_bytes n s = Some (a, b) -> s = a ++ b /\ n = str_bytes a.
Proof.
  revert n a b. induction s as [|c s IH]; intros n a b H.
  - destruct n; [|discriminate]. injection H as <- <-. split; reflexivity.
  - destruct n as [|n]; [injection H as <- <-; split; reflexivity|]. cbn [split_bytes] in H.
    destruct (Nat.leb_spec (utf8_len c) (S n)) as [G|G]; [|discriminate].
    destruct (split_bytes (S n - utf8_len c) s) as [[a' b']|] eqn:E; [|discriminate]. injection H as <- <-.
    apply IH in E. destruct E as [-> E]. split; [reflexivity|]. change (str_bytes (c :: a')) with (utf8_len c + str_bytes a'). lia.
Qed.
Lemma from_utf8_split s a b : scalars s -> s = a ++ b -> from_b (str_bytes a) (utf8 s) = Ok (utf8 b).
Proof.
  intros Hs ->. pose proof (split_utf8 (a ++ b) Hs (str_bytes a)) as H. rewrite split_bytes_app in H.
  unfold split_at_checked in H. unfold from_b. destruct (boundary _ _); [|discriminate]. injection H as _ H. rewrite H. reflexivity.
Qed.
Lemma upto_utf8_split s a b : scalars s -> s = a ++ b -> upto_b (str_bytes a) (utf8 s) = Ok (utf8 a).
Proof.
  intros Hs ->. pose proof (split_utf8 (a ++ b) Hs (str_bytes a)) as H. rewrite split_bytes_app in H.
  unfold split_at_checked in H. unfold upto_b. destruct (boundary _ _); [|discriminate]. injection H as H _. rewrite H. reflexivity.
Qed.

(** ** Decoding *)
Lemma mod_add k b a m : (b = k * m)%N -> (a < m)%N -> ((b + a) mod m = a)%N.
Proof. intros -> H. rewrite N.add_comm, N.mod_add by lia. apply N.mod_small. assumption. Qed.
Lemma next_utf8 c r : scalar c = true -> next_char (utf8_char c ++ r) = Ok (Some (c, r)).
Proof.
  intros Hs. apply scalar_lt in Hs. unfold utf8_char.
  pose proof (N.mod_lt c 64 ltac:(lia)) as Hm0. pose proof (divmod64 c) as Hd0.
  assert (M64 : forall x, ((128 + x mod 64) mod 64 = x mod 64)%N).
  { intros x. apply (mod_add 2); [reflexivity|apply N.mod_lt; lia]. }
  destruct (c <? 128)%N eqn:E1; [cbn; rewrite E1; reflexivity|].
  destruct (c <? 2048)%N eqn:E2; Nb.
  { assert (c / 64 < 32)%N by (apply N.div_lt_upper_bound; lia).
    cbn [app next_char].
    replace (192 + c / 64 <? 128)%N with false by (symmetry; nb).
    replace (192 + c / 64 <? 224)%N with true by (symmetry; nb).
    rewrite M64. replace ((192 + c / 64) mod 32)%N with (c / 64)%N by (symmetry; apply (mod_add 6); [reflexivity|lia]).
    rewrite Hd0. reflexivity. }
  pose proof (divmod64 (c / 64)) as Hd1. pose proof (N.mod_lt (c / 64) 64 ltac:(lia)) as Hm1.
  assert (E4096 : (c / 4096 = c / 64 / 64)%N) by (rewrite N.div_div by lia; reflexivity).
  destruct (c <? 65536)%N eqn:E3; Nb.
  { rewrite E4096.
    assert (c / 64 / 64 < 16)%N by (rewrite <- E4096; apply N.div_lt_upper_bound; lia).
    cbn [app next_char].
    replace (224 + c / 64 / 64 <? 128)%N with false by (symmetry; nb).
    replace (224 + c / 64 / 64 <? 224)%N with false by (symmetry; nb).
    replace (224 + c / 64 / 64 <? 240)%N with true by (symmetry; nb).
    rewrite !M64. replace ((224 + c / 64 / 64) mod 32)%N with (c / 64 / 64)%N by (symmetry; apply (mod_add 7); [reflexivity|lia]).
    do 4 f_equal. lia. }
  pose proof (divmod64 (c / 64 / 64)) as Hd2. pose proof (N.mod_lt (c / 64 / 64) 64 ltac:(lia)) as Hm2.
  assert (Ebig : (c / 262144 = c / 64 / 64 / 64)%N) by (rewrite !N.div_div by lia; reflexivity).
  rewrite E4096, Ebig.
  assert (c / 64 / 64 / 64 < 5)%N by (rewrite <- Ebig; apply N.div_lt_upper_bound; lia).
  cbn [app next_char].
  replace (240 + c / 64 / 64 / 64 <? 128)%N with false by (symmetry; nb).
  replace (240 + c / 64 / 64 / 64 <? 224)%N with false by (symmetry; nb).
  replace (240 + c / 64 / 64 / 64 <? 240)%N with false by (symmetry; nb).
  rewrite !M64. replace ((240 + c / 64 / 64 / 64) mod 8)%N with (c / 64 / 64 / 64)%N by (symmetry; apply (mod_add 30); [reflexivity|lia]).
  do 4 f_equal. lia.
Qed.
Lemma back_utf8 c r : scalar c = true -> next_char_back (rev (utf8_char c) ++ r) = Ok (Some c).
Proof.
  intros Hs. apply scalar_lt in Hs. unfold utf8_char.
  pose proof (N.mod_lt c 64 ltac:(lia)) as Hm0. pose proof (divmod64 c) as Hd0.
  assert (M64 : forall x, ((128 + x mod 64) mod 64 = x mod 64)%N).
  { intros x. apply (mod_add 2); [reflexivity|apply N.mod_lt; lia]. }
  assert (Hc64 : forall x, is_cont (128 + x mod 64) = true).
  { intros x. apply cont_of, N.mod_lt. lia. }
  assert (H128 : forall x, (128 + x mod 64 <? 128)%N = false) by (intros x; apply N.ltb_ge, N.le_add_r).
  assert (Hn : forall x, (192 <= x)%N -> is_cont x = false).
  { intros x Hx. unfold is_cont. replace (x <? 192)%N with false by (symmetry; apply N.ltb_ge; lia). apply andb_false_r. }
  destruct (c <? 128)%N eqn:E1; [cbn; rewrite E1; reflexivity|].
  destruct (c <? 2048)%N eqn:E2; Nb.
  { assert (c / 64 < 32)%N by (apply N.div_lt_upper_bound; lia).
    cbn [rev app next_char_back]. rewrite H128, Hn by lia. cbn [negb].
    rewrite M64. replace ((192 + c / 64) mod 32)%N with (c / 64)%N by (symmetry; apply (mod_add 6); [reflexivity|lia]).
    rewrite Hd0. reflexivity. }
  pose proof (divmod64 (c / 64)) as Hd1. pose proof (N.mod_lt (c / 64) 64 ltac:(lia)) as Hm1.
  assert (E4096 : (c / 4096 = c / 64 / 64)%N) by (rewrite N.div_div by lia; reflexivity).
  destruct (c <? 65536)%N eqn:E3; Nb.
  { rewrite E4096.
    assert (c / 64 / 64 < 16)%N by (rewrite <- E4096; apply N.div_lt_upper_bound; lia).
    cbn [rev app next_char_back]. rewrite H128, Hc64. cbn [negb]. rewrite Hn by lia. cbn [negb].
    rewrite !M64. replace ((224 + c / 64 / 64) mod 16)%N with (c / 64 / 64)%N by (symmetry; apply (mod_add 14); [reflexivity|lia]).
    do 2 f_equal. lia. }
  pose proof (divmod64 (c / 64 / 64)) as Hd2. pose proof (N.mod_lt (c / 64 / 64) 64 ltac:(lia)) as Hm2.
  assert (Ebig : (c / 262144 = c / 64 / 64 / 64)%N) by (rewrite !N.div_div by lia; reflexivity).
  rewrite E4096, Ebig.
  assert (c / 64 / 64 / 64 < 5)%N by (rewrite <- Ebig; apply N.div_lt_upper_bound; lia).
  cbn [rev app next_char_back]. rewrite H128, !Hc64. cbn [negb].
  rewrite !M64. replace ((240 + c / 64 / 64 / 64) mod 8)%N with (c / 64 / 64 / 64)%N by (symmetry; apply (mod_add 30); [reflexivity|lia]).
  do 2 f_equal. lia.
Qed.
Lemma start_utf8 p s : scalars p -> scalars s -> bytes_start (utf8 p) (utf8 s) = starts_with p s.
Proof.
  intros Hp. revert s. unfold starts_with. induction Hp as [|c p Hc Hp IH]; intros s Hs; [destruct (utf8 s); reflexivity|].
  destruct Hs as [|d s Hd Hs].
  - cbn [strip_prefix]. rewrite utf8_cons. destruct (char_head c Hc) as (h & t & -> & _). reflexivity.
  - cbn [strip_prefix]. rewrite !utf8_cons. destruct (N.eqb_spec c d) as [->|Hne].
    + rewrite <- (IH s Hs). generalize (utf8_char d). intros l. induction l as [|b l IHl]; [reflexivity|].
      cbn [app bytes_start]. rewrite N.eqb_refl. exact IHl.
    + destruct (bytes_start _ _) eqn:E; [exfalso|reflexivity]. apply Hne.
      assert (H : exists r, utf8_char d ++ utf8 s = (utf8_char c ++ utf8 p) ++ r).
      { revert E. generalize (utf8_char d ++ utf8 s), (utf8_char c ++ utf8 p). clear.
        intros l q. revert l. induction q as [|x q IH]; intros l E; [exists l; reflexivity|].
        destruct l as [|y l]; [discriminate|]. cbn [bytes_start] in E. apply andb_true_iff in E. destruct E as [E1 E].
        apply N.eqb_eq in E1. subst y. destruct (IH l E) as [r ->]. exists r. reflexivity. }
      destruct H as [r H]. rewrite <- app_assoc in H. apply (f_equal utf8_step) in H.
      rewrite !utf8_step_char in H by assumption. injection H as H _. symmetry. exact H.
Qed.

(** ** The methods on encoded text *)
Section Sim.
  Notation B s := (mkBS (utf8 s%list) (length s%list)).

  Lemma new_utf8 s : scalars s -> bs_new (utf8 s) = B s.
  Proof. intros H. unfold bs_new. rewrite count_utf8 by exact H. reflexivity. Qed.
  Lemma ci_cons c s off : scalar c = true ->
    ci_next (off, utf8 (c :: s)) = Ok (Some (off, c), (off + utf8_len c, utf8 s)).
  Proof.
    intros Hc. unfold ci_next. rewrite utf8_cons, next_utf8 by exact Hc. cbn [rbnd].
    rewrite app_length, utf8_char_len, Nat.add_sub. reflexivity.
  Qed.
  Lemma ci_nil off : ci_next (off, utf8 []) = Ok (None, (off, [])). Proof. reflexivity. Qed.
  Lemma rest_utf8 a b : scalars (a ++ b) -> rest_from (str_bytes a, utf8 b) (utf8 (a ++ b)) = Ok (utf8 b).
  Proof.
    intros H. unfold rest_from. destruct b as [|c b]; [reflexivity|].
    rewrite ci_cons by (apply Forall_app in H; destruct H as [_ H]; inversion H; assumption).
    cbn [rbnd]. apply (from_utf8_split _ a); [exact H|reflexivity].
  Qed.
  Lemma rest_one c s : scalars (c :: s) -> rest_from (0 + utf8_len c, utf8 s) (utf8 (c :: s)) = Ok (utf8 s).
  Proof.
    intros H. replace (0 + utf8_len c) with (str_bytes [c]) by (unfold str_bytes; cbn; lia). exact (rest_utf8 [c] s H).
  Qed.
  Lemma drop_S s c r : bs_drop (B (c :: s)) r 1 = Ok (mkBS r (length s)).
  Proof. unfold bs_drop. cbn [bs_chars length Nat.leb Nat.sub]. rewrite Nat.sub_0_r. reflexivity. Qed.

  Lemma consume_if_utf8 f s : scalars s -> b_consume_if f (B s) =
    match s with
    | [] => Ok (None, B s)
    | c :: r => if f c then Ok (Some c, B r) else Ok (None, B s)
    end.
  Proof.
    intros H. unfold b_consume_if, char_indices. cbn [bs_bytes]. destruct s as [|c s]; [reflexivity|].
    inversion H; subst. rewrite ci_cons by assumption. cbn [rbnd]. destruct (f c); [|reflexivity].
    rewrite rest_one by exact H. cbn [rbnd]. rewrite drop_S. reflexivity.
  Qed.
  Lemma consume_utf8 s : scalars s -> b_consume (B s) =
    match s with [] => Ok (None, B s) | c :: r => Ok (Some c, B r) end.
  Proof.
    intros H. unfold b_consume, char_indices. cbn [bs_bytes]. destruct s as [|c s]; [reflexivity|].
    inversion H; subst. rewrite ci_cons by assumption. cbn [rbnd].
    rewrite rest_one by exact H. cbn [rbnd]. rewrite drop_S. reflexivity.
  Qed.
  Lemma consume_char_utf8 e s : scalars s -> b_consume_char e (B s) =
    match s with
    | [] => Ok (None, B s)
    | c :: r => if (c =? e)%N then Ok (Some e, B r) else Ok (None, B s)
    end.
  Proof.
    intros H. unfold b_consume_char, char_indices. cbn [bs_bytes]. destruct s as [|c s]; [reflexivity|].
    inversion H; subst. rewrite ci_cons by assumption. cbn [rbnd]. destruct (c =? e)%N; [|reflexivity].
    rewrite rest_one by exact H. cbn [rbnd]. rewrite drop_S. reflexivity.
  Qed.
  Lemma consume_bytes_utf8 n s : scalars s -> b_consume_bytes n (B s) =
    match split_bytes n s with Some (a, b) => Ok (Some (utf8 a), B b) | None => Ok (None, B s) end.
  Proof.
    intros H. unfold b_consume_bytes. cbn [bs_bytes]. rewrite split_utf8 by exact H.
    destruct (split_bytes n s) as [[a b]|] eqn:E; [|reflexivity]. apply split_bytes_parts in E. destruct E as [-> _].
    apply Forall_app in H. destruct H as [Ha Hb]. rewrite count_utf8 by exact Ha.
    unfold bs_drop. cbn [bs_chars]. rewrite app_length.
    replace (length a <=? length a + length b) with true by (symmetry; apply Nat.leb_le; lia). cbn [rbnd].
    do 3 f_equal. lia.
  Qed.
  Lemma take_utf8 n : forall s off, scalars s -> take_chars n (off, utf8 s) =
    if n <=? length s then Ok (Some (firstn n s), (off + str_bytes (firstn n s), utf8 (skipn n s)))
    else Ok (None, (off + str_bytes s, [])).
  Proof.
    induction n as [|n IH]; intros s off H.
    - cbn [take_chars Nat.leb firstn skipn]. rewrite Nat.add_0_r. reflexivity.
    - cbn [take_chars]. destruct s as [|c s].
      + rewrite ci_nil. cbn [rbnd length Nat.leb]. rewrite Nat.add_0_r. reflexivity.
      + inversion H; subst. rewrite ci_cons by assumption. cbn [rbnd]. rewrite IH by assumption.
        cbn [length Nat.leb firstn skipn]. change (str_bytes (c :: s)) with (utf8_len c + str_bytes s).
        change (str_bytes (c :: firstn n s)) with (utf8_len c + str_bytes (firstn n s)).
        destruct (n <=? length s); cbn [rbnd]; rewrite Nat.add_assoc; reflexivity.
  Qed.
  Lemma consume_chars_utf8 n s : scalars s -> b_consume_chars n (B s) =
    if n <=? length s then Ok (Some (firstn n s), B (skipn n s)) else Ok (None, B s).
  Proof.
    intros H. unfold b_consume_chars, char_indices. cbn [bs_bytes]. rewrite take_utf8 by exact H.
    destruct (Nat.leb_spec n (length s)) as [G|G]; cbn [rbnd]; [|reflexivity].
    pose proof (rest_utf8 (firstn n s) (skipn n s)) as R. rewrite firstn_skipn in R. cbn [Nat.add]. rewrite R by exact H.
    cbn [rbnd].
    unfold bs_drop. cbn [bs_chars]. replace (n <=? length s) with true by (symmetry; apply Nat.leb_le; exact G).
    cbn [rbnd]. rewrite skipn_length. reflexivity.
  Qed.
  Lemma strip_parts p : forall s r, strip_prefix p s = Some r -> s = p ++ r.
  Proof.
    induction p as [|x p IH]; intros s r H; [injection H as <-; reflexivity|].
    destruct s as [|y s]; [discriminate|]. cbn [strip_prefix] in H. destruct (N.eqb_spec x y) as [->|]; [|discriminate].
    cbn [app]. f_equal. apply IH. exact H.
  Qed.
  Lemma consume_str_utf8 p s : scalars p -> scalars s -> b_consume_str (utf8 p) (B s) =
    match strip_prefix p s with Some r => Ok (Some (utf8 p), B r) | None => Ok (None, B s) end.
  Proof.
    intros Hp Hs. unfold b_consume_str. cbn [bs_bytes]. rewrite start_utf8 by assumption. unfold starts_with.
    destruct (strip_prefix p s) as [r|] eqn:E; [|reflexivity]. apply strip_parts in E. subst s.
    rewrite utf8_length, (from_utf8_split _ p r) by (assumption || reflexivity). cbn [rbnd].
    rewrite count_utf8 by exact Hp. unfold bs_drop. cbn [bs_chars]. rewrite app_length.
    replace (length p <=? length p + length r) with true by (symmetry; apply Nat.leb_le; lia). cbn [rbnd].
    do 3 f_equal. lia.
  Qed.
  Lemma find_from_utf8 x s : scalars s -> forall fuel off, length s < fuel -> find_from fuel x (off, utf8 s) =
    Ok match find_char x s with Some i => Some (off + i) | None => None end.
  Proof.
    induction 1 as [|c s Hc Hs IH]; intros fuel off Hf; (destruct fuel as [|fuel]; [cbn [length] in Hf; lia|]); cbn [find_from].
    - reflexivity.
    - rewrite ci_cons by exact Hc. cbn [rbnd find_char]. destruct (c =? x)%N; [rewrite Nat.add_0_r; reflexivity|].
      rewrite IH by (cbn [length] in Hf; lia). destruct (find_char x s) as [i|]; [rewrite Nat.add_assoc|]; reflexivity.
  Qed.
  Lemma bytes_ge s : length s <= length (utf8 s).
  Proof.
    induction s as [|c s IH]; [reflexivity|]. rewrite utf8_cons, app_length, utf8_char_len. cbn [length].
    pose proof (utf8_len_pos c). lia.
  Qed.
  Lemma find_utf8 x s : scalars s -> b_find x (B s) = Ok (find_char x s).
  Proof.
    intros H. unfold b_find, char_indices. cbn [bs_bytes]. rewrite find_from_utf8 by (try exact H; pose proof (bytes_ge s); lia).
    destruct (find_char x s); reflexivity.
  Qed.
  Lemma first_utf8 s : scalars s -> b_first (B s) = Ok (first_char s).
  Proof.
    destruct 1 as [|c s Hc _]; [reflexivity|]. unfold b_first. cbn [bs_bytes]. rewrite utf8_cons, next_utf8 by exact Hc. reflexivity.
  Qed.
  Definition last_of (s : str) : option N := match s with [] => None | _ => Some (last s 0%N) end.
  Lemma last_utf8 s : scalars s -> b_last (B s) = Ok (last_of s).
  Proof.
    intros H. unfold b_last, last_of. cbn [bs_bytes]. destruct s as [|c0 s0]; [reflexivity|].
    destruct (@exists_last _ (c0 :: s0) ltac:(discriminate)) as (a & c & E). rewrite E in *.
    rewrite last_last, utf8_app, rev_app_distr. cbn [utf8 flat_map]. rewrite app_nil_r.
    apply back_utf8. apply Forall_app in H. destruct H as [_ H]. inversion H; assumption.
  Qed.
  Lemma empty_utf8 s : b_empty (B s) = is_empty s.
  Proof. unfold b_empty. cbn [bs_bytes]. destruct s as [|c s]; [reflexivity|]. pose proof (bytes_ge (c :: s)) as H.
    cbn [length] in H. cbn [is_empty]. apply Nat.eqb_neq. lia. Qed.
  Lemma starts_utf8 p s : scalars p -> scalars s -> b_starts (utf8 p) (B s) = starts_with p s.
  Proof. intros. apply start_utf8; assumption. Qed.
  Lemma slice_utf8 n s a b : scalars s -> split_bytes n s = Some (a, b) -> b_slice n (B s) = Ok (B a).
  Proof.
    intros H E. apply split_bytes_parts in E. destruct E as [-> ->]. unfold b_slice. cbn [bs_bytes].
    rewrite (upto_utf8_split _ a b) by (assumption || reflexivity). cbn [rbnd].
    apply Forall_app in H. destruct H as [Ha _]. rewrite count_utf8 by exact Ha. reflexivity.
  Qed.
  Lemma all_rebased_utf8 s : scalars s -> forall fuel, length s < fuel -> all_rebased fuel (B s) = Ok (forallb is_rebased s).
  Proof.
    intros H fuel. revert s H. induction fuel as [|fuel IH]; intros s H Hf; [lia|]. cbn [all_rebased].
    rewrite consume_utf8 by exact H. destruct s as [|c s]; [reflexivity|]. cbn [rbnd forallb].
    inversion H; subst. destruct (is_rebased c); [|reflexivity]. apply IH; [assumption|]. cbn [length] in Hf. lia.
  Qed.
  Lemma find_split x s e : find_char x s = Some e -> exists a b, s = a ++ x :: b /\ e = str_bytes a /\ split_bytes e s = Some (a, x :: b).
  Proof.
    revert e. induction s as [|c s IH]; intros e H; [discriminate|]. cbn [find_char] in H. destruct (N.eqb_spec c x) as [->|].
    - injection H as <-. exists [], s. repeat split.
    - destruct (find_char x s) as [i|]; [|discriminate]. injection H as <-. destruct (IH i eq_refl) as (a & b & -> & -> & _).
      exists (c :: a), b. split; [reflexivity|]. split; [reflexivity|]. exact (split_bytes_app (c :: a) (x :: b)).
  Qed.
  Lemma local_scope_utf8 s : scalars s -> b_local_scope (B s) = local_scope_pattern s.
  Proof.
    intros H. unfold b_local_scope, local_scope_pattern. rewrite consume_char_utf8 by exact H.
    destruct s as [|q s]; [reflexivity|]. inversion H; subst. destruct (q =? ch "?")%N; [|reflexivity]. cbn [rbnd].
    rewrite find_utf8 by assumption. cbn [rbnd]. destruct (find_char (ch "?") s) as [e|] eqn:Ef; [|reflexivity].
    destruct (find_split _ _ _ Ef) as (a & b & Es & _ & Esp). rewrite Esp, (slice_utf8 _ _ _ _ H3 Esp). cbn [rbnd].
    assert (Ha : scalars a) by (rewrite Es in H3; apply Forall_app in H3; apply H3).
    rewrite empty_utf8. destruct a as [|c a]; [reflexivity|]. cbn [is_empty].
    rewrite first_utf8 by exact Ha. rewrite last_utf8 by exact Ha. cbn [bs_chars rbnd first_char].
    destruct a as [|c' a]; [reflexivity|]. change (length (c :: c' :: a) =? 1) with false. cbn [last_of].
    destruct (last (c :: c' :: a) 0 =? ch "@")%N eqn:El; [|reflexivity].
    destruct (@exists_last _ (c :: c' :: a) ltac:(discriminate)) as (u & d & Eu).
    rewrite Eu in *. rewrite last_last in El. apply N.eqb_eq in El. subst d.
    assert (Hsp : split_bytes (str_bytes (u ++ [ch "@"]) - 1) (u ++ [ch "@"]) = Some (u, [ch "@"])).
    { replace (str_bytes (u ++ [ch "@"]) - 1) with (str_bytes u); [apply split_bytes_app|].
      unfold str_bytes. rewrite map_app, list_sum_app. cbn. lia. }
    rewrite Hsp. unfold b_len. cbn [bs_bytes]. rewrite utf8_length.
    replace (1 <=? str_bytes (u ++ [ch "@"])) with true
      by (symmetry; apply Nat.leb_le; unfold str_bytes; rewrite map_app, list_sum_app; cbn; lia).
    rewrite (slice_utf8 _ _ _ _ Ha Hsp). cbn [rbnd].
    apply Forall_app in Ha. destruct Ha as [Hu _]. rewrite consume_if_utf8 by exact Hu.
    destruct u as [|b0 bs]; [reflexivity|]. destruct (in_range (ch "B") (ch "P") b0); [|reflexivity]. cbn [rbnd andb bs_bytes].
    inversion Hu; subst. apply all_rebased_utf8; [assumption|]. pose proof (bytes_ge bs). lia.
  Qed.
  Lemma first_is_utf8 f s : scalars s -> b_first_is f (B s) = Ok (first_is f s).
  Proof. intros H. unfold b_first_is. rewrite first_utf8 by exact H. reflexivity. Qed.
  Lemma lit_scalars (t : String.string) : scalars (L t).
  Proof.
    unfold scalars, L. induction t as [|a t IH]; [constructor|]. cbn. constructor; [|exact IH].
    unfold scalar. assert (N_of_ascii a < 256)%N by apply N_ascii_bounded.
    replace (N_of_ascii a <? 55296)%N with true by (symmetry; apply N.ltb_lt; lia). reflexivity.
  Qed.
  Lemma function_utf8 s : scalars s -> b_function (B s) = Ok (is_function_type s).
  Proof. intros H. unfold b_function. rewrite !starts_utf8 by (exact H || apply lit_scalars). reflexivity. Qed.
  Lemma pointer_utf8 s : scalars s -> b_pointer (B s) = Ok (is_pointer_type s).
  Proof.
    intros H. unfold b_pointer, is_pointer_type. rewrite starts_utf8 by (exact H || apply lit_scalars).
    destruct (starts_with (L "$$Q") s); [reflexivity|]. apply first_is_utf8. exact H.
  Qed.
  Lemma skip_scalars c s : scalars s -> scalars (skip c s).
  Proof. destruct 1 as [|x s Hx Hs]; [constructor|]. cbn [skip]. destruct (x =? c)%N; [|constructor]; assumption. Qed.
  Lemma skip_utf8 {A} e s (k : bstring -> res A) : scalars s ->
    (do* (_, b) <- b_consume_char e (B s); k b) = k (B (skip e s)).
  Proof. intros H. rewrite consume_char_utf8 by exact H. destruct s as [|c s]; [reflexivity|]. cbn [skip]. destruct (c =? e)%N; reflexivity. Qed.
  Lemma member_utf8 s : scalars s -> b_member (B s) = Ok (is_member_pointer s).
  Proof.
    intros H. unfold b_member, is_member_pointer. rewrite consume_utf8 by exact H. destruct s as [|c s]; [reflexivity|].
    cbn [rbnd]. destruct (one_of (L "$A") c); [reflexivity|]. destruct (one_of (L "PQRS") c); [|reflexivity].
    inversion H; subst. rewrite consume_if_utf8 by assumption.
    assert (R : forall s, scalars s ->
      (do* (_, b) <- b_consume_char (ch "E") (B s); do* (_, b) <- b_consume_char (ch "I") b; do* (_, b) <- b_consume_char (ch "F") b;
       if b_empty b then Ok None
       else do* o <- b_first b;
            Ok match o with
               | Some c => if one_of (L "ABCD") c then Some false else if one_of (L "QRST") c then Some true else None
               | None => None
               end) =
      Ok match skip (ch "F") (skip (ch "I") (skip (ch "E") s)) with
         | [] => None
         | c3 :: _ => if one_of (L "ABCD") c3 then Some false else if one_of (L "QRST") c3 then Some true else None
         end).
    { intros t Ht. rewrite skip_utf8 by exact Ht. rewrite skip_utf8 by (apply skip_scalars; exact Ht).
      rewrite skip_utf8 by (do 2 apply skip_scalars; exact Ht). rewrite empty_utf8.
      assert (Hk : scalars (skip (ch "F") (skip (ch "I") (skip (ch "E") t)))) by (do 3 apply skip_scalars; exact Ht).
      destruct (skip (ch "F") (skip (ch "I") (skip (ch "E") t))) as [|c3 r]; [reflexivity|]. cbn [is_empty].
      rewrite first_utf8 by exact Hk. reflexivity. }
    destruct s as [|d s]; [exact (R [] H3)|]. destruct (is_digit d); [reflexivity|]. exact (R (d :: s) H3).
  Qed.
End Sim.

(** ** Any use of the cursor *)

(** The methods the parser calls (literals are given as characters, [&str] in the code). *)
Inductive op :=
| OConsume | OChar (e : N) | OIf (f : N -> bool) | OBytes (n : nat) | OTwo | OStr (p : str)
| OFind (x : N) | OFirst | OLast | OEmpty | OLenBytes | OLenChars | OStarts (p : str)
| OLocalScope | OArray | OCustom | OFunction | OMember | OPointer | OTag | OMd5.

(** What a method returns; texts are bytes. *)
Inductive ans :=
| AChar (o : option N) | AText (o : option (list N)) | ATwo (o : option (N * N))
| AOff (o : option nat) | ALen (n : nat) | ABool (b : bool) | AOpt (o : option bool).

Definition b_two (b : bstring) : res (option (N * N) * bstring) :=
  do* (o, b) <- b_consume_chars 2 b;
  match o with
  | None => Ok (None, b)
  | Some [c1; c2] => Ok (Some (c1, c2), b)
  | Some _ => Panic
  end.
Definition b_do (o : op) (b : bstring) : res (ans * bstring) :=
  match o with
  | OConsume => do* (v, b) <- b_consume b; Ok (AChar v, b)
  | OChar e => do* (v, b) <- b_consume_char e b; Ok (AChar v, b)
  | OIf f => do* (v, b) <- b_consume_if f b; Ok (AChar v, b)
  | OBytes n => do* (v, b) <- b_consume_bytes n b; Ok (AText v, b)
  | OTwo => do* (v, b) <- b_two b; Ok (ATwo v, b)
  | OStr p => do* (v, b) <- b_consume_str (utf8 p) b; Ok (AText v, b)
  | OFind x => do* v <- b_find x b; Ok (AOff v, b)
  | OFirst => do* v <- b_first b; Ok (AChar v, b)
  | OLast => do* v <- b_last b; Ok (AChar v, b)
  | OEmpty => Ok (ABool (b_empty b), b)
  | OLenBytes => Ok (ALen (b_len b), b)
  | OLenChars => Ok (ALen (bs_chars b), b)
  | OStarts p => Ok (ABool (b_starts (utf8 p) b), b)
  | OLocalScope => do* v <- b_local_scope b; Ok (ABool v, b)
  | OArray => do* v <- b_array b; Ok (ABool v, b)
  | OCustom => do* v <- b_custom b; Ok (ABool v, b)
  | OFunction => do* v <- b_function b; Ok (ABool v, b)
  | OMember => do* v <- b_member b; Ok (AOpt v, b)
  | OPointer => do* v <- b_pointer b; Ok (ABool v, b)
  | OTag => do* v <- b_tag b; Ok (ABool v, b)
  | OMd5 => do* (v, b) <- b_md5 b; Ok (AText v, b)
  end.

(** The same methods on characters (MString.v); the text of [demangle_md5_name] as in Parser.v. *)
Definition enc (o : option str) : option (list N) := match o with Some t => Some (utf8 t) | None => None end.
Definition m_md5 (m : mstring) : mres str :=
  do* (p, m1) <- try_consume_str (L "??@") m;
  match p with
  | None => Ok (None, m1)
  | Some _ =>
    match find_char (ch "@") (ms_str m1) with
    | None => Ok (None, m1)
    | Some stop =>
      do* (o, m2) <- try_consume_n_bytes (stop + 1) m1;
      match o with
      | None => Ok (None, m2)
      | Some _ =>
        do* (r4, m3) <- try_consume_str (L "??_R4@") m2;
        let stop := stop + 3 + match r4 with Some _ => 6 | None => 0 end in
        match split_bytes (stop + 1) (ms_str m) with
        | None => Panic
        | Some (md5, _) => Ok (Some md5, m3)
        end
      end
    end
  end.
Definition m_do (o : op) (m : mstring) : res (ans * mstring) :=
  match o with
  | OConsume => do* (v, m) <- try_consume m; Ok (AChar v, m)
  | OChar e => do* (v, m) <- try_consume_char e m; Ok (AChar v, m)
  | OIf f => do* (v, m) <- try_consume_char_if f m; Ok (AChar v, m)
  | OBytes n => do* (v, m) <- try_consume_n_bytes n m; Ok (AText (enc v), m)
  | OTwo => do* (v, m) <- try_consume_2_chars m; Ok (ATwo v, m)
  | OStr p => do* (v, m) <- try_consume_str p m; Ok (AText (enc v), m)
  | OFind x => Ok (AOff (find_char x (ms_str m)), m)
  | OFirst => Ok (AChar (first_char (ms_str m)), m)
  | OLast => Ok (AChar (last_of (ms_str m)), m)
  | OEmpty => Ok (ABool (is_empty (ms_str m)), m)
  | OLenBytes => Ok (ALen (str_bytes (ms_str m)), m)
  | OLenChars => Ok (ALen (ms_chars m), m)
  | OStarts p => Ok (ABool (starts_with p (ms_str m)), m)
  | OLocalScope => do* v <- local_scope_pattern (ms_str m); Ok (ABool v, m)
  | OArray => Ok (ABool (is_array_type (ms_str m)), m)
  | OCustom => Ok (ABool (is_custom_type (ms_str m)), m)
  | OFunction => Ok (ABool (is_function_type (ms_str m)), m)
  | OMember => Ok (AOpt (is_member_pointer (ms_str m)), m)
  | OPointer => Ok (ABool (is_pointer_type (ms_str m)), m)
  | OTag => Ok (ABool (is_tag_type (ms_str m)), m)
  | OMd5 => do* (v, m) <- m_md5 m; Ok (AText (enc v), m)
  end.

(** The literals of the code are valid text. *)
Definition op_ok (o : op) : Prop := match o with OStr p | OStarts p => scalars p | _ => True end.

(** A user of the cursor: it may choose each call by all the answers it has got so far. *)
Inductive client (A : Type) :=
| Done (a : A)
| Ask (o : op) (k : ans -> client A).
Arguments Done {A} _. Arguments Ask {A} _ _.
Fixpoint client_ok {A} (c : client A) : Prop :=
  match c with Done _ => True | Ask o k => op_ok o /\ forall v, client_ok (k v) end.
Fixpoint b_run {A} (c : client A) (b : bstring) : res (A * bstring) :=
  match c with Done a => Ok (a, b) | Ask o k => do* (v, b) <- b_do o b; b_run (k v) b end.
Fixpoint m_run {A} (c : client A) (m : mstring) : res (A * mstring) :=
  match c with Done a => Ok (a, m) | Ask o k => do* (v, m) <- m_do o m; m_run (k v) m end.

Lemma m_drop a b : ms_drop (ms_new (a ++ b)) b (length a) = Ok (ms_new b).
Proof.
  unfold ms_drop, ms_new. cbn [ms_chars]. rewrite app_length.
  replace (length a <=? length a + length b) with true by (symmetry; apply Nat.leb_le; lia). do 2 f_equal. lia.
Qed.
Lemma m_drop1 c r : ms_drop (ms_new (c :: r)) r 1 = Ok (ms_new r). Proof. exact (m_drop [c] r). Qed.
Lemma m_if f s : try_consume_char_if f (ms_new s) =
  match s with
  | [] => Ok (None, ms_new s)
  | c :: r => if f c then Ok (Some c, ms_new r) else Ok (None, ms_new s)
  end.
Proof. unfold try_consume_char_if. destruct s as [|c r]; [reflexivity|]. cbn [ms_str ms_new]. fold (ms_new (c :: r)). rewrite m_drop1. reflexivity. Qed.
Lemma m_bytes n s : try_consume_n_bytes n (ms_new s) =
  match split_bytes n s with Some (a, b) => Ok (Some a, ms_new b) | None => Ok (None, ms_new s) end.
Proof.
  unfold try_consume_n_bytes. cbn [ms_str ms_new]. fold (ms_new s). destruct (split_bytes n s) as [[a b]|] eqn:E; [|reflexivity].
  apply split_bytes_parts in E. destruct E as [-> _]. rewrite m_drop. reflexivity.
Qed.
Lemma m_strp p s : try_consume_str p (ms_new s) =
  match strip_prefix p s with Some r => Ok (Some p, ms_new r) | None => Ok (None, ms_new s) end.
Proof.
  unfold try_consume_str. cbn [ms_str ms_new]. fold (ms_new s). destruct (strip_prefix p s) as [r|] eqn:E; [|reflexivity].
  apply strip_parts in E. subst s. rewrite m_drop. reflexivity.
Qed.
Lemma find_next x s e : find_char x s = Some e -> (x < 128)%N -> exists a b, s = a ++ x :: b /\ e = str_bytes a /\ split_bytes (e + 1) s = Some (a ++ [x], b).
Proof.
  intros H Hx. destruct (find_split _ _ _ H) as (a & b & -> & -> & _). exists a, b. split; [reflexivity|]. split; [reflexivity|].
  replace (str_bytes a + 1) with (str_bytes (a ++ [x])).
  - change (x :: b) with ([x] ++ b). rewrite app_assoc. apply split_bytes_app.
  - unfold str_bytes. rewrite map_app, list_sum_app. cbn [map list_sum fold_right]. unfold utf8_len at 2.
    replace (x <? 128)%N with true by (symmetry; apply N.ltb_lt; exact Hx). lia.
Qed.

(** One call: both models return the same answer and leave the same text. *)
Lemma do_agree o s : op_ok o -> scalars s -> exists v r p, s = p ++ r /\
  b_do o (mkBS (utf8 s) (length s)) = Ok (v, mkBS (utf8 r) (length r)) /\
  m_do o (ms_new s) = Ok (v, ms_new r) /\
  (forall t, v = AText (Some t) -> t = utf8 p).
Proof.
  intros Ho Hs.
  assert (Hstay : forall v X Y, X = Ok (v, mkBS (utf8 s) (length s)) ->
    Y = Ok (v, ms_new s) -> (forall t, v = AText (Some t) -> t = []) -> exists v r p, s = p ++ r /\
    X = Ok (v, mkBS (utf8 r) (length r)) /\ Y = Ok (v, ms_new r) /\
    (forall t, v = AText (Some t) -> t = utf8 p)).
  { intros v X Y H1 H2 H3. exists v, s, []. repeat split; assumption. }
  destruct o; cbn [b_do m_do op_ok] in *.
  - unfold try_consume. rewrite consume_utf8 by exact Hs. destruct s as [|c r]; [apply (Hstay (AChar None)); (reflexivity || discriminate)|].
    exists (AChar (Some c)), r, [c]. split; [reflexivity|]. cbn [ms_str ms_new]. fold (ms_new (c :: r)). rewrite m_drop1. repeat split. discriminate.
  - unfold try_consume_char. rewrite consume_char_utf8, m_if by exact Hs. destruct s as [|c r]; [apply (Hstay (AChar None)); (reflexivity || discriminate)|].
    destruct (N.eqb_spec c e) as [->|]; [|apply (Hstay (AChar None)); (reflexivity || discriminate)].
    exists (AChar (Some e)), r, [e]. repeat split. discriminate.
  - rewrite consume_if_utf8, m_if by exact Hs. destruct s as [|c r]; [apply (Hstay (AChar None)); (reflexivity || discriminate)|].
    destruct (f c); [|apply (Hstay (AChar None)); (reflexivity || discriminate)].
    exists (AChar (Some c)), r, [c]. repeat split. discriminate.
  - rewrite consume_bytes_utf8, m_bytes by exact Hs. destruct (split_bytes n s) as [[a b]|] eqn:E; [|apply (Hstay (AText None)); (reflexivity || discriminate)].
    apply split_bytes_parts in E. destruct E as [-> _]. exists (AText (Some (utf8 a))), b, a. repeat split. intros t [= <-]. reflexivity.
  - unfold b_two, try_consume_2_chars. rewrite consume_chars_utf8 by exact Hs.
    destruct s as [|c1 [|c2 r]]; [apply (Hstay (ATwo None)); (reflexivity || discriminate)..|].
    exists (ATwo (Some (c1, c2))), r, [c1; c2]. split; [reflexivity|]. cbn [ms_str ms_new]. fold (ms_new (c1 :: c2 :: r)).
    pose proof (m_drop [c1; c2] r) as D. cbn [app length] in D. rewrite D. repeat split. discriminate.
  - rewrite consume_str_utf8, m_strp by assumption. destruct (strip_prefix p s) as [r|] eqn:E; [|apply (Hstay (AText None)); (reflexivity || discriminate)].
    apply strip_parts in E. subst s. exists (AText (Some (utf8 p))), r, p. repeat split. intros t [= <-]. reflexivity.
  - rewrite find_utf8 by exact Hs. eapply Hstay; (reflexivity || discriminate).
  - rewrite first_utf8 by exact Hs. eapply Hstay; (reflexivity || discriminate).
  - rewrite last_utf8 by exact Hs. eapply Hstay; (reflexivity || discriminate).
  - rewrite empty_utf8. eapply Hstay; (reflexivity || discriminate).
  - unfold b_len. cbn [bs_bytes ms_str ms_new]. rewrite utf8_length. eapply Hstay; (reflexivity || discriminate).
  - eapply Hstay; (reflexivity || discriminate).
  - rewrite starts_utf8 by assumption. eapply Hstay; (reflexivity || discriminate).
  - rewrite local_scope_utf8 by exact Hs. cbn [ms_str ms_new].
    assert (Hl : exists v, local_scope_pattern s = Ok v).
    { clear - Hs. unfold local_scope_pattern. destruct s as [|q s]; [eexists; reflexivity|]. destruct (q =? ch "?")%N; [|eexists; reflexivity].
      destruct (find_char (ch "?") s) as [e|] eqn:Ef; [|eexists; reflexivity]. destruct (find_split _ _ _ Ef) as (a & b & _ & _ & ->).
      destruct a as [|c a]; [eexists; reflexivity|]. destruct a as [|c' a]; [eexists; reflexivity|].
      destruct (last (c :: c' :: a) 0 =? ch "@")%N eqn:El; [|eexists; reflexivity].
      destruct (@exists_last _ (c :: c' :: a) ltac:(discriminate)) as (u & d & Eu). rewrite Eu in *. rewrite last_last in El.
      apply N.eqb_eq in El. subst d.
      replace (str_bytes (u ++ [ch "@"]) - 1) with (str_bytes u)
        by (unfold str_bytes; rewrite map_app, list_sum_app; cbn; lia).
      rewrite split_bytes_app. destruct u; eexists; reflexivity. }
    destruct Hl as [v ->]. eapply Hstay; (reflexivity || discriminate).
  - unfold b_array. rewrite first_is_utf8 by exact Hs. eapply Hstay; (reflexivity || discriminate).
  - unfold b_custom. rewrite first_is_utf8 by exact Hs. eapply Hstay; (reflexivity || discriminate).
  - rewrite function_utf8 by exact Hs. eapply Hstay; (reflexivity || discriminate).
  - rewrite member_utf8 by exact Hs. eapply Hstay; (reflexivity || discriminate).
  - rewrite pointer_utf8 by exact Hs. eapply Hstay; (reflexivity || discriminate).
  - unfold b_tag. rewrite first_is_utf8 by exact Hs. eapply Hstay; (reflexivity || discriminate).
  - unfold b_md5, m_md5. cbn [bs_bytes]. rewrite consume_str_utf8, m_strp by (exact Hs || apply lit_scalars).
    destruct (strip_prefix (L "??@") s) as [r1|] eqn:E1; [|apply (Hstay (AText None)); [reflexivity|reflexivity|discriminate]].
    apply strip_parts in E1. cbn [rbnd ms_str ms_new]. fold (ms_new r1).
    assert (H1 : scalars r1) by (rewrite E1 in Hs; apply Forall_app in Hs; apply Hs).
    rewrite find_utf8 by exact H1. cbn [rbnd].
    destruct (find_char (ch "@") r1) as [stop|] eqn:Ef;
      [|exists (AText None), r1, (L "??@"); repeat split; [exact E1|discriminate]].
    destruct (find_next _ _ _ Ef ltac:(reflexivity)) as (a & b & Er1 & Est & Esp).
    rewrite consume_bytes_utf8, m_bytes, Esp by exact H1. cbn [rbnd].
    assert (Hb : scalars b) by (rewrite Er1 in H1; apply Forall_app in H1; destruct H1 as [_ H1]; inversion H1; assumption).
    rewrite consume_str_utf8, m_strp by (exact Hb || apply lit_scalars). fold (ms_new s).
    set (R := match strip_prefix (L "??_R4@") b with Some r => (L "??_R4@", r) | None => ([], b) end).
    assert (EL : b = fst R ++ snd R).
    { unfold R. destruct (strip_prefix (L "??_R4@") b) as [r|] eqn:E; [apply strip_parts in E; exact E|reflexivity]. }
    pose (p := (L "??@" ++ (a ++ [ch "@"]) ++ fst R)%list).
    assert (Ep : s = p ++ snd R).
    { unfold p. rewrite E1, Er1. rewrite EL at 1. rewrite <- !app_assoc. reflexivity. }
    assert (Lp : forall q, str_bytes (L "??@" ++ (a ++ [ch "@"]) ++ q) = stop + 3 + str_bytes q + 1).
    { intros q. unfold str_bytes. rewrite !map_app, !list_sum_app, Est. cbn. unfold str_bytes. lia. }
    exists (AText (Some (utf8 p))), (snd R), p. split; [exact Ep|].
    assert (Hsp : split_bytes (stop + 3 + str_bytes (fst R) + 1) s = Some (p, snd R)).
    { rewrite <- (Lp (fst R)). fold p. rewrite Ep. apply split_bytes_app. }
    assert (Hup : upto_b (stop + 3 + str_bytes (fst R) + 1) (utf8 s) = Ok (utf8 p)).
    { rewrite <- (Lp (fst R)). fold p. apply (upto_utf8_split _ p (snd R)); [exact Hs|exact Ep]. }
    revert Hsp Hup. unfold R. destruct (strip_prefix (L "??_R4@") b) as [r|]; cbn [fst snd rbnd]; intros Hsp Hup.
    + change (length (utf8 (L "??@"))) with 3. change (length (utf8 (L "??_R4@"))) with 6.
      change (str_bytes (L "??_R4@")) with 6 in Hsp, Hup. rewrite Hup. cbn [ms_str ms_new]. rewrite Hsp. cbn [rbnd enc].
      repeat split. intros t [= <-]. reflexivity.
    + change (length (utf8 (L "??@"))) with 3. change (str_bytes []) with 0 in Hsp, Hup. rewrite Hup. cbn [ms_str ms_new].
      rewrite Hsp. cbn [rbnd enc]. repeat split. intros t [= <-]. reflexivity.
Qed.

(** C48.  Whatever calls are made on the cursor over a valid text, in whatever order and
    depending on whatever came before: on the bytes nothing panics and nothing is read past
    the end, the answers are those of the same calls on characters, and what is left is the
    encoding of a suffix of the text together with its exact number of characters. *)
Theorem bytes_and_characters_agree : forall A (c : client A) s, scalars s -> client_ok c ->
  exists a p r, s = p ++ r /\
    b_run c (bs_new (utf8 s)) = Ok (a, mkBS (utf8 r) (length r)) /\
    m_run c (ms_new s) = Ok (a, mkMS r (length r)).
Proof.
  intros A c s Hs Hc. rewrite new_utf8 by exact Hs. revert s Hs.
  induction c as [a|o k IH]; intros s Hs.
  - exists a, [], s. repeat split.
  - destruct Hc as [Ho Hk]. destruct (do_agree o s Ho Hs) as (v & r & p & E & Hb & Hm & _).
    assert (Hr : scalars r) by (rewrite E in Hs; apply Forall_app in Hs; apply Hs).
    destruct (IH v (Hk v) r Hr) as (a & p' & r' & E' & Hb' & Hm'). exists a, (p ++ p'), r'.
    split; [rewrite E, E', app_assoc; reflexivity|]. cbn [b_run m_run]. rewrite Hb, Hm. cbn [rbnd]. split; assumption.
Qed.
Print Assumptions bytes_and_characters_agree.

(** After any such calls, the next text handed out is the encoding of the characters removed
    from the front: never part of a character. *)
Theorem texts_are_whole_characters : forall A (c : client A) s a b o t b', scalars s -> client_ok c -> op_ok o ->
  b_run c (bs_new (utf8 s)) = Ok (a, b) ->
  b_do o b = Ok (AText (Some t), b') ->
  exists before piece after, s = before ++ piece ++ after /\ t = utf8 piece /\ bs_bytes b' = utf8 after.
Proof.
  intros A c s a b o t b' Hs Hc Ho Hr Hd. destruct (bytes_and_characters_agree A c s Hs Hc) as (a' & p & r & E & Hb & _).
  rewrite Hr in Hb. injection Hb as -> ->. assert (Hsr : scalars r) by (rewrite E in Hs; apply Forall_app in Hs; apply Hs).
  destruct (do_agree o r Ho Hsr) as (v & r' & p' & E' & Hb' & _ & Ht). rewrite Hd in Hb'. injection Hb' as <- ->.
  exists p, p', r'. split; [rewrite E, E'; reflexivity|]. split; [apply Ht; reflexivity|reflexivity].
Qed.
Print Assumptions texts_are_whole_characters.

(** A cut at a byte count is refused exactly when the count is no prefix's length. *)
Theorem cuts_only_at_boundaries : forall s n, scalars s ->
  (forall p r, s = p ++ r -> str_bytes p = n ->
     b_do (OBytes n) (bs_new (utf8 s)) = Ok (AText (Some (utf8 p)), bs_new (utf8 r))) /\
  ((forall p r, s = p ++ r -> str_bytes p <> n) ->
     b_do (OBytes n) (bs_new (utf8 s)) = Ok (AText None, bs_new (utf8 s))).
Proof.
  intros s n Hs. cbn [b_do]. rewrite (new_utf8 s) by exact Hs. rewrite consume_bytes_utf8 by exact Hs. split.
  - intros p r E <-. assert (Hr : scalars r) by (rewrite E in Hs; apply Forall_app in Hs; apply Hs).
    rewrite E, split_bytes_app, new_utf8 by exact Hr. reflexivity.
  - intros H. destruct (split_bytes n s) as [[a b]|] eqn:E; [|reflexivity]. apply split_bytes_parts in E. destruct E as [E1 E2].
    exfalso. apply (H a b E1). symmetry. exact E2.
Qed.
Print Assumptions cuts_only_at_boundaries.

(** [aé漢😀@B]: bytes 1, 2, 3 and 4; a client that reads the offset of [@], cuts there, and
    looks at what is left. *)
Definition sample : str := [97; 0xE9; 0x6F22; 0x1F600; 64; 66]%N.
Definition cut_at : client (list ans) :=
  Ask (OFind 64%N) (fun v => match v with
    | AOff (Some i) => Ask (OBytes i) (fun t => Ask (OChar 64%N) (fun c => Ask OLenChars (fun l => Ask OLast (fun z => Done [v; t; c; l; z]))))
    | _ => Done [v] end).
Example sample_ok : scalars sample /\ client_ok cut_at.
Proof. split; [repeat constructor|]. cbn. split; [exact I|]. intros [ | |?|[i|]|?|?|?]; cbn; auto; repeat split. Qed.
Example sample_run : b_run cut_at (bs_new (utf8 sample)) =
  Ok ([AOff (Some 10); AText (Some (utf8 [97; 0xE9; 0x6F22; 0x1F600]%N)); AChar (Some 64%N); ALen 1; AChar (Some 66%N)],
      mkBS [66%N] 1).
Proof. vm_compute. reflexivity. Qed.
Example inside_a_character : b_do (OBytes 5) (bs_new (utf8 sample)) = Ok (AText None, bs_new (utf8 sample)) /\
  from_b 5 (utf8 sample) = Panic.
Proof. split; vm_compute; reflexivity. Qed.
