(** C46: control characters are never invented, so a one-line input gives a one-line text; and
    the command-line example prints exactly two lines.  Models /repo/examples/undecorate_name.rs. *)
From Verif Require Import Parser Api Utf8 Wf ParseOk Safety Flags Alike AlikeParse.

(** ** Where the characters of a text come from *)
Lemma source_alike E s : rust_str s ->
  alike (e_alnum E) (e_alnum E) (fun c c' => c' = c /\ scalar c = true /\ ((32 <= c <= 126)%N \/ In c s)).
Proof.
  intros Hs. constructor.
  - intros c Hc. split; [reflexivity|]. split; [|left; exact Hc]. unfold scalar. apply orb_true_intro. left. apply N.ltb_lt. lia.
  - intros c c' [-> _]. left. reflexivity.
  - intros a a' b b' [-> _] [-> _]. reflexivity.
  - intros c c' [-> _]. reflexivity.
  - intros c c' [-> [H _]]. auto.
  - intros c c' [-> _] _. reflexivity.
Qed.

(** ** C46 *)

(** Every character of a text is a printable ASCII character (U+0020 to U+007E) or a character
    of the input. *)
Theorem no_invented_control_characters : forall (E : env) (s t : str), rust_str s -> demangle E s = Ok t ->
  forall c, In c t -> (32 <= c <= 126)%N \/ In c s.
Proof.
  intros E s t Hs Hd. pose proof (source_alike E s Hs) as HA. unfold demangle, demangle_with, demangle_into_with in Hd.
  set (F := code_limits E) in *. assert (HF : F = envL (e_alnum E) (e_flags E) (e_nodes F) (e_out F) (e_grow E)) by reflexivity.
  assert (HF' : F = envR (e_alnum E) (e_flags E) (e_nodes F) (e_out F) (e_grow E)) by reflexivity.
  set (nd := e_nodes F) in *. set (ou := e_out F) in *. clearbody F nd ou.
  assert (Hss : Rs (fun c c' => c' = c /\ scalar c = true /\ ((32 <= c <= 126)%N \/ In c s)) s s).
  { assert (G : forall l, (forall c, In c l -> In c s) -> Rs (fun c c' => c' = c /\ scalar c = true /\ ((32 <= c <= 126)%N \/ In c s)) l l).
    { induction l as [|c l IH]; intros Hl; [constructor|]. constructor.
      - split; [reflexivity|]. split; [|right; apply Hl; left; reflexivity]. unfold rust_str in Hs. rewrite Forall_forall in Hs. apply Hs, Hl. left. reflexivity.
      - apply IH. intros d Hx. apply Hl. right. exact Hx. }
    apply G. auto. }
  pose proof (rel_parse _ _ _ HA (e_flags E) nd ou (e_grow E) (e_grow E) s s Hss) as Hp. rewrite <- HF, <- HF' in Hp.
  destruct (parse F s) as [[h u]|e| |]; try discriminate. destruct Hp as [_ Hu].
  destruct (relw_output _ _ _ HA (e_flags E) nd ou (e_grow E) (e_grow E) (s_store u) (s_store u) KSym h (sr_store _ _ _ Hu)
    (clear (mkBuf [] 0)) (clear (mkBuf [] 0)) (brel_nil _ _ _)) as [_ Hb]. rewrite <- HF, <- HF' in Hb.
  destruct (output F (s_store u) KSym h (clear (mkBuf [] 0))) as [b [[]|e| |]]; try discriminate. cbn [fst snd] in Hb.
  destruct (brel_decode _ _ _ HA _ _ (Hb eq_refl)) as (x & x' & H1 & H2 & H3). rewrite H1 in Hd. rewrite H1 in Hd. injection Hd as <-.
  clear - H3. induction H3 as [|c c' x x' (_ & _ & Hc) _ IH]; intros d Hd; [destruct Hd|]. destruct Hd as [<-|Hd]; [exact Hc|auto].
Qed.
Print Assumptions no_invented_control_characters.

(** A text of one line for an input of one line. *)
Definition newline : N := 10.
Theorem one_line_stays_one_line : forall (E : env) (s t : str), rust_str s -> demangle E s = Ok t ->
  ~ In newline s -> ~ In newline t.
Proof.
  intros E s t Hs Hd Hn Hin. destruct (no_invented_control_characters E s t Hs Hd _ Hin) as [H|H]; [unfold newline in H; lia|auto].
Qed.
Print Assumptions one_line_stays_one_line.

(** ** The command-line example *)

(** The options of /repo/examples/undecorate_name.rs:18-51, in the order of the source. *)
Record cli := {
  mangled_string : str;
  opt_no_calling_convention : bool; opt_no_tag_specifier : bool; opt_no_access_specifier : bool;
  opt_no_member_type : bool; opt_no_return_type : bool; opt_no_variable_type : bool; opt_no_this_type : bool;
  opt_no_leading_underscores : bool; opt_no_ms_keywords : bool; opt_name_only : bool
}.
(** The flag word, /repo/examples/undecorate_name.rs:55-88: [flags |= ..] per option. *)
Definition cli_flags (c : cli) : N :=
  let add (b : bool) (f w : N) := if b then N.lor w f else w in
  add (opt_name_only c) NAME_ONLY (add (opt_no_ms_keywords c) NO_MS_KEYWORDS
  (add (opt_no_leading_underscores c) NO_LEADING_UNDERSCORES (add (opt_no_this_type c) NO_THISTYPE
  (add (opt_no_variable_type c) NO_VARIABLE_TYPE (add (opt_no_return_type c) NO_RETURN_TYPE
  (add (opt_no_member_type c) NO_MEMBER_TYPE (add (opt_no_access_specifier c) NO_ACCESS_SPECIFIER
  (add (opt_no_tag_specifier c) NO_TAG_SPECIFIER (add (opt_no_calling_convention c) NO_CALLING_CONVENTION 0%N))))))))).
(** What [main] writes to standard output, /repo/examples/undecorate_name.rs:90-96; a failing
    standard output is not modelled. *)
Definition cli_main (E : env) (c : cli) : res str :=
  let line1 := mangled_string c ++ [newline] in
  match demangle (with_flags E (cli_flags c)) (mangled_string c) with
  | Ok t => Ok (line1 ++ t ++ [newline])
  | Err _ => Ok (line1 ++ L "error: Invalid mangled name" ++ [newline])
  | Panic => Panic
  | Fuel => Fuel
  end.

(** Specification: the lines of a text, each ended by a newline. *)
Fixpoint lines (t : str) (line : str) : list str :=
  match t with
  | [] => match line with [] => [] | _ => [rev line] end
  | c :: t => if (c =? newline)%N then rev line :: lines t [] else lines t (c :: line)
  end.
Lemma lines_one x : forall acc y, ~ In newline x -> lines (x ++ newline :: y) acc = (rev acc ++ x) :: lines y [].
Proof.
  induction x as [|c x IH]; intros acc y Hx; cbn [app lines].
  - rewrite app_nil_r. reflexivity.
  - destruct (N.eqb_spec c newline) as [->|Hc]; [exfalso; apply Hx; left; reflexivity|]. rewrite IH by (intros H; apply Hx; right; exact H).
    cbn [rev]. rewrite <- app_assoc. reflexivity.
Qed.

(** For an argument of one line the program prints exactly two lines: the argument, and the text
    [demangle] returns for it or the fixed message. *)
Theorem two_lines : forall (E : env) (c : cli), rust_str (mangled_string c) -> ~ In newline (mangled_string c) ->
  exists out second, cli_main E c = Ok out /\ lines out [] = [mangled_string c; second] /\
    match demangle (with_flags E (cli_flags c)) (mangled_string c) with
    | Ok t => second = t
    | _ => second = L "error: Invalid mangled name"
    end.
Proof.
  intros E c Hs Hn. unfold cli_main. pose proof (demangle_facts (code_limits (with_flags E (cli_flags c))) (mangled_string c) Hs eq_refl) as Hf.
  change (demangle_with (code_limits (with_flags E (cli_flags c))) (mangled_string c)) with (demangle (with_flags E (cli_flags c)) (mangled_string c)) in Hf.
  destruct (demangle (with_flags E (cli_flags c)) (mangled_string c)) as [t|e| |] eqn:Hd; try contradiction.
  - eexists. exists t. split; [reflexivity|]. split; [|reflexivity]. rewrite <- app_assoc. cbn [app]. rewrite lines_one by assumption.
    rewrite lines_one by (eapply one_line_stays_one_line; eassumption). reflexivity.
  - eexists. eexists. split; [reflexivity|]. split; [|reflexivity]. rewrite <- app_assoc. cbn [app]. rewrite lines_one by assumption. reflexivity.
Qed.
Print Assumptions two_lines.

(** Each option sets its flag and no other. *)
Theorem options_set_their_flags : forall (c : cli) (i : N),
  N.testbit (cli_flags c) i =
  match i with
  | 0 => opt_no_calling_convention c | 1 => opt_no_tag_specifier c | 2 => opt_no_access_specifier c
  | 3 => opt_no_member_type c | 4 => opt_no_return_type c | 5 => opt_no_variable_type c | 6 => opt_no_this_type c
  | 7 => opt_no_leading_underscores c | 8 => opt_no_ms_keywords c | 9 => opt_name_only c | _ => false
  end%N.
Proof.
  intros [s b0 b1 b2 b3 b4 b5 b6 b7 b8 b9] i. unfold cli_flags. cbn [opt_no_calling_convention opt_no_tag_specifier opt_no_access_specifier
    opt_no_member_type opt_no_return_type opt_no_variable_type opt_no_this_type opt_no_leading_underscores opt_no_ms_keywords opt_name_only].
  assert (A : forall (b : bool) f w, N.testbit (if b then N.lor w f else w) i = N.testbit w i || (b && N.testbit f i)).
  { intros [] f w; [apply N.lor_spec|rewrite orb_false_r; reflexivity]. }
  cbv zeta. rewrite !A, N.bits_0.
  destruct (N.lt_ge_cases i 10) as [Hi|Hi].
  - assert (Hc : In i [0;1;2;3;4;5;6;7;8;9]%N) by (cbn; lia). cbn in Hc.
    repeat (destruct Hc as [<-|Hc]; [destruct b0, b1, b2, b3, b4, b5, b6, b7, b8, b9; reflexivity|]). destruct Hc.
  - assert (B : forall n, (n < 10)%N -> N.testbit (2 ^ n) i = false) by (intros n Hn; apply N.pow2_bits_false; lia).
    pose proof (B 0 eq_refl)%N as B0. pose proof (B 1 eq_refl)%N as B1. pose proof (B 2 eq_refl)%N as B2. pose proof (B 3 eq_refl)%N as B3.
    pose proof (B 4 eq_refl)%N as B4. pose proof (B 5 eq_refl)%N as B5. pose proof (B 6 eq_refl)%N as B6. pose proof (B 7 eq_refl)%N as B7.
    pose proof (B 8 eq_refl)%N as B8. pose proof (B 9 eq_refl)%N as B9.
    change NO_CALLING_CONVENTION with (2 ^ 0)%N. change NO_TAG_SPECIFIER with (2 ^ 1)%N. change NO_ACCESS_SPECIFIER with (2 ^ 2)%N.
    change NO_MEMBER_TYPE with (2 ^ 3)%N. change NO_RETURN_TYPE with (2 ^ 4)%N. change NO_VARIABLE_TYPE with (2 ^ 5)%N.
    change NO_THISTYPE with (2 ^ 6)%N. change NO_LEADING_UNDERSCORES with (2 ^ 7)%N. change NO_MS_KEYWORDS with (2 ^ 8)%N. change NAME_ONLY with (2 ^ 9)%N.
    rewrite B0, B1, B2, B3, B4, B5, B6, B7, B8, B9, !andb_false_r.
    destruct i as [|p]; [lia|]. do 4 (destruct p as [p|p|]; try reflexivity; try lia).
Qed.
Print Assumptions options_set_their_flags.

(** ** The hypotheses are met *)
Definition some_cli : cli := Build_cli (L "?f@@YAXXZ") true false false false false false false false false false.
Example cli_example : ~ In newline (mangled_string some_cli) /\ rust_str (mangled_string some_cli) /\
  cli_main (env_of 0) some_cli = Ok (L "?f@@YAXXZ" ++ [newline] ++ L "void f(void)" ++ [newline]).
Proof. split; [vm_compute; intuition discriminate|]. split; [repeat constructor|vm_compute; reflexivity]. Qed.
(** A newline of the input does show up: the restriction to one line is needed. *)
Example newline_passes : demangle (env_of 0) (L "?a" ++ [newline] ++ L "b@@3HA") = Ok (L "int a" ++ [newline] ++ L "b").
Proof. vm_compute. reflexivity. Qed.
(** The message can be a text: the second line alone does not tell failure from success. *)
Example message_is_a_text : demangle (env_of NAME_ONLY) (L "?error: Invalid mangled name@@3HA") = Ok (L "error: Invalid mangled name").
Proof. vm_compute. reflexivity. Qed.
