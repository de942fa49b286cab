(** C01, C02, C04, C06, C07, C08, C09: the unconditional guarantees of the API. *)
From Verif Require Import Api Utf8 Wf PrintOk Lex ParseOk Rel RelOut.

(** ** Specification vocabulary *)

(** A Rust [&str]: a sequence of Unicode scalar values. *)
Definition rust_str (s : str) : Prop := Forall (fun c => scalar c = true) s.
(** What an output may contain: ASCII characters and characters of the input. *)
Definition from_input (s : str) (c : N) : Prop := (c < 128)%N \/ In c s.

(** ** The two halves of a run *)
Lemma ascii_scalar c : (c < 128)%N -> scalar c = true.
Proof. intros H. unfold scalar. apply orb_true_iff. left. apply N.ltb_lt. lia. Qed.

Lemma from_input_scalar s : rust_str s -> forall c, from_input s c -> scalar c = true.
Proof. intros Hs c [H|H]; [apply ascii_scalar; assumption|]. unfold rust_str in Hs. rewrite Forall_forall in Hs. auto. Qed.

Definition tt_P (h : handle) : Prop := True.
Lemma parse_with_ok E fuel s : rust_str s -> length s < fuel ->
  match parse_with E fuel s with
  | Ok (h, t) => wfk (from_input s) (s_store t) tt_P KSym h /\ (N.of_nat (length (s_store t)) <= e_nodes E)%N
  | Err e => okerr s e
  | _ => False
  end.
Proof.
  intros Hs Hl. unfold parse_with.
  assert (Ha : forall c, (c < 128)%N -> from_input s c) by (left; assumption).
  assert (Hok : oks (from_input s) s) by (apply Forall_forall; right; assumption).
  destruct (knot_ok (from_input s) Ha (from_input_scalar s Hs) E s Hok fuel) as [Hp _].
  specialize (Hp tt_P (init_st s)). unfold wp in Hp.
  assert (Hi : inv (from_input s) E s tt_P (init_st s)).
  { split; cbn; try constructor; try (exists []; reflexivity); try (apply N.le_0_l). }
  specialize (Hp Hi). destruct (k_parse (knot_of E fuel) (init_st s)) as [[h t]|e| |].
  - destruct Hp as [Hst Hw]; [left; exists []; auto|exact Hl|]. split; [exact Hw|].
    apply (i_nodes _ _ _ _ _ (st_inv _ _ _ _ _ _ _ Hst)).
  - apply Hp; [left; exists []; auto|exact Hl].
  - apply Hp; [left; exists []; auto|exact Hl].
  - apply Hp; [left; exists []; auto|exact Hl].
Qed.

(** Every fact about one call of [demangle_into_with]. *)
Lemma run_facts E s b : rust_str s -> (0 < e_out E)%N ->
  (b_cap b <= b_cap (snd (demangle_into_with E s b)))%N /\
  match fst (demangle_into_with E s b) with
  | Ok tt => exists t, b_bytes (snd (demangle_into_with E s b)) = utf8 t /\ Forall (from_input s) t /\
                       (N.of_nat (length (utf8 t)) < e_out E)%N
  | Err e => b_bytes (snd (demangle_into_with E s b)) = [] /\ (okerr s e \/ e = Io OutOfMemory)
  | _ => False
  end.
Proof.
  intros Hs Hpos. unfold demangle_into_with, parse.
  pose proof (parse_with_ok E (S (length s)) s Hs (Nat.lt_succ_diag_r _)) as Hp.
  destruct (parse_with E (S (length s)) s) as [[h t]|e| |]; try contradiction.
  2: { cbn. split; [lia|]. auto. }
  destruct Hp as [Hw _].
  assert (Ha : forall c, (c < 128)%N -> from_input s c) by (left; assumption).
  pose proof (output_ok (from_input s) Ha E _ _ _ _ Hw (clear b) (bok_empty _ _ _)) as [Hc Ho].
  destruct (output E (s_store t) KSym h (clear b)) as [ob [[]|e| |]]; cbn [fst snd] in *; try contradiction.
  - destruct Ho as [Hb _]. destruct (bok_decode _ (from_input_scalar s Hs) E _ Hb) as (u & Hu & Hok & Hbytes).
    rewrite Hu. cbn [fst snd]. split; [exact Hc|]. exists u. split; [exact Hbytes|]. split; [exact Hok|].
    destruct Hb as (u' & Hu' & _ & [He|Hlt]).
    + rewrite <- Hbytes, He. cbn. exact Hpos.
    + rewrite <- Hbytes. exact Hlt.
  - subst e. cbn. split; [exact Hc|]. auto.
Qed.

Lemma from_utf8_ok s t : rust_str s -> Forall (from_input s) t -> from_utf8 (utf8 t) = Some t.
Proof.
  intros Hs Ht. apply from_utf8_utf8. eapply Forall_impl; [|exact Ht]. intros c. apply from_input_scalar. assumption.
Qed.
Lemma demangle_with_into E s : demangle_with E s =
  match demangle_into_with E s (mkBuf [] 0) with
  | (Ok tt, b) => match from_utf8 (b_bytes b) with Some t => Ok t | None => Panic end
  | (Err e, _) => Err e | (Panic, _) => Panic | (Fuel, _) => Fuel
  end.
Proof. reflexivity. Qed.

(** Every fact about one call of [demangle]. *)
Lemma demangle_facts E s : rust_str s -> (0 < e_out E)%N ->
  match demangle_with E s with
  | Ok t => Forall (from_input s) t /\ (N.of_nat (length (utf8 t)) < e_out E)%N
  | Err e => okerr s e \/ e = Io OutOfMemory
  | _ => False
  end.
Proof.
  intros Hs Hpos. rewrite demangle_with_into. destruct (run_facts E s (mkBuf [] 0) Hs Hpos) as [_ H].
  destruct (demangle_into_with E s (mkBuf [] 0)) as [r b]; cbn [fst snd] in H.
  destruct r as [[]|e| |]; try contradiction.
  - destruct H as (t & -> & Ht & Hl). rewrite (from_utf8_ok s t Hs Ht). auto.
  - apply H.
Qed.

(** ** C01 *)
(** C01.  For every input and flag word both entry points return: no panic and no violated
    precondition of an unchecked access. *)
Theorem demangle_never_panics : forall (E : env) (s : str), rust_str s ->
  demangle E s <> Panic /\ forall buf, fst (demangle_into E s buf) <> Panic.
Proof.
  intros E s Hs. split.
  - pose proof (demangle_facts (code_limits E) s Hs eq_refl) as H. unfold demangle. destruct (demangle_with _ s); try contradiction; discriminate.
  - intros b. destruct (run_facts (code_limits E) s b Hs eq_refl) as [_ H]. unfold demangle_into.
    destruct (fst _) as [[]|e| |]; try contradiction; discriminate.
Qed.
Print Assumptions demangle_never_panics.
(** A non-ASCII identifier, where byte offsets and character counts differ. *)
Example never_panics_example : rust_str (L "?" ++ [0x4E2D; 0x1F600]%N ++ L "@@3HA") /\
  demangle (env_of 0) (L "?" ++ [0x4E2D; 0x1F600]%N ++ L "@@3HA") = Ok (L "int " ++ [0x4E2D; 0x1F600]%N).
Proof. split; [repeat constructor|vm_compute; reflexivity]. Qed.

(** ** C02 *)
(** C02 (termination).  The model's own recursion bounds are never hit: neither the parser's
    nesting bound [1 + length s], nor any loop bound (each is one more than the number of
    characters left), nor the printer's bound (one more than the number of nodes). *)
Theorem demangle_terminates : forall (E : env) (s : str), rust_str s ->
  demangle E s <> Fuel /\ forall buf, fst (demangle_into E s buf) <> Fuel.
Proof.
  intros E s Hs. split.
  - pose proof (demangle_facts (code_limits E) s Hs eq_refl) as H. unfold demangle. destruct (demangle_with _ s); try contradiction; discriminate.
  - intros b. destruct (run_facts (code_limits E) s b Hs eq_refl) as [_ H]. unfold demangle_into.
    destruct (fst _) as [[]|e| |]; try contradiction; discriminate.
Qed.
Print Assumptions demangle_terminates.

(** C02 (depth).  Parsing a string of [n] characters never nests deeper than [n + 1] calls of
    the recursive functions: any larger nesting allowance gives the same run. *)
Theorem parse_depth_linear : forall (E : env) (s : str) (depth : nat), rust_str s -> length s < depth ->
  parse_with E depth s = parse_with E (S (length s)) s.
Proof.
  intros E s d Hs Hd.
  assert (Hrel : rel (fun _ => False) True eq (k_parse (knot_of E (S (length s)))) (k_parse (knot_of E d))).
  { apply rel_knot_fuel; try exact I; try lia.
    - intros n. apply rel_refl.
    - intros t b b' Hb. right. unfold beq in *. destruct t as [|c t]; [auto|]. unfold w_str. rewrite Hb.
      destruct (_ <? _)%N; cbn [fst snd]; split; auto; discriminate.
    - intros sg k h. apply relw_output.
      + split; auto.
      + intros t b b' Hb. right. unfold beq in *. destruct t as [|c t]; [auto|]. unfold w_str. rewrite Hb.
        destruct (_ <? _)%N; cbn [fst snd]; split; auto; discriminate. }
  specialize (Hrel (init_st s)).
  pose proof (parse_with_ok E (S (length s)) s Hs (Nat.lt_succ_diag_r _)) as Hp. unfold parse_with in *.
  destruct (k_parse (knot_of E (S (length s))) (init_st s)) as [[h t]|e| |]; try contradiction.
  - destruct Hrel as [[]|Hrel]. destruct (k_parse (knot_of E d) (init_st s)) as [[h' t']|e| |]; try contradiction.
    destruct Hrel as [-> ->]. reflexivity.
  - destruct Hrel as [[]|Hrel]. destruct (k_parse (knot_of E d) (init_st s)) as [[h' t']|e'| |]; try contradiction.
    subst. reflexivity.
Qed.
Print Assumptions parse_depth_linear.
Example depth_example : parse_with (env_of 0) 1000 (L "?x@@3PAPAHA") = parse_with (env_of 0) 12 (L "?x@@3PAPAHA") /\
  parse_with (env_of 0) 3 (L "?x@@3PAPAHA") = Fuel.
Proof. split; vm_compute; reflexivity. Qed.

(** C02 (acyclic).  In the node graph a successful parse hands to the printer, no node reachable
    from the symbol can reach itself again, although nodes are mutated after being linked. *)
Theorem node_graph_acyclic : forall (E : env) (s : str) (h : handle) (t : st), rust_str s ->
  parse E s = Ok (h, t) ->
  forall a n x c, reach (s_store t) h a -> nth_error (s_store t) a = Some n -> In (x, c) (kids n) ->
  ~ reach (s_store t) c a.
Proof.
  intros E s h t Hs Hp a n x c Hr Hn Hc.
  pose proof (parse_with_ok E (S (length s)) s Hs (Nat.lt_succ_diag_r _)) as Hok. unfold parse in Hp.
  rewrite Hp in Hok. destruct Hok as [[Hw _] _].
  assert (Hwa : wf (from_input s) (s_store t) tt_P a).
  { clear Hn Hc Hp. induction Hr as [|h m y d k Hm Hd Hr IH]; [assumption|]. apply IH.
    destruct (wf_inv _ _ _ _ Hw) as (m' & Hm' & _ & _ & Hk). assert (m' = m) by congruence. subst m'. eapply Hk; eassumption. }
  eapply wf_acyclic; eassumption.
Qed.
Print Assumptions node_graph_acyclic.
(** A constructor: its node is linked into the name, then updated to point at its class. *)
Example acyclic_example : exists h t a n, parse (env_of 0) (L "??0A@@QAE@XZ") = Ok (h, t) /\
  reach (s_store t) h a /\ nth_error (s_store t) a = Some n /\ kids n <> [].
Proof.
  destruct (parse (env_of 0) (L "??0A@@QAE@XZ")) as [[h t]|e| |] eqn:Hp; vm_compute in Hp; try discriminate Hp.
  injection Hp as <- <-.
  eexists _, _, 6, _. split; [vm_compute; reflexivity|]. split; [apply reach_refl|]. split; [reflexivity|discriminate].
Qed.

(** ** C04 *)
(** C04.  A result is shorter than [2^20] bytes. *)
Theorem output_size_bound : forall (E : env) (s t : str), rust_str s -> demangle E s = Ok t ->
  (N.of_nat (length (utf8 t)) < 2 ^ 20)%N.
Proof.
  intros E s t Hs Ht. pose proof (demangle_facts (code_limits E) s Hs eq_refl) as H. unfold demangle in Ht. rewrite Ht in H. apply H.
Qed.
Print Assumptions output_size_bound.
Theorem output_size_bound_into : forall (E : env) (s : str) (buf : string_buf), rust_str s ->
  fst (demangle_into E s buf) = Ok tt -> (N.of_nat (length (b_bytes (snd (demangle_into E s buf)))) < 2 ^ 20)%N.
Proof.
  intros E s b Hs Ht. destruct (run_facts (code_limits E) s b Hs eq_refl) as [_ H]. unfold demangle_into in *. rewrite Ht in H.
  destruct H as (t & -> & _ & H). exact H.
Qed.
Print Assumptions output_size_bound_into.
Example size_example : demangle (env_of 0) (L "?x@@3HA") = Ok (L "int x").
Proof. vm_compute; reflexivity. Qed.

(** ** C06 *)
(** C06.  The buffer after a successful call is the UTF-8 encoding of a sequence of scalar
    values, and [Utf8Error] is never returned by either entry point. *)
Theorem output_is_utf8 : forall (E : env) (s : str), rust_str s ->
  (forall t, demangle E s = Ok t -> rust_str t) /\ demangle E s <> Err Utf8Error /\
  forall buf, fst (demangle_into E s buf) <> Err Utf8Error /\
    (fst (demangle_into E s buf) = Ok tt -> exists t, rust_str t /\ b_bytes (snd (demangle_into E s buf)) = utf8 t).
Proof.
  intros E s Hs.
  pose proof (demangle_facts (code_limits E) s Hs eq_refl) as H. unfold demangle. split; [|split].
  - intros t Ht. rewrite Ht in H. destruct H as [H _]. eapply Forall_impl; [|exact H]. intros c. apply from_input_scalar; assumption.
  - intros He. rewrite He in H. destruct H as [[H _]|H]; [apply H; reflexivity|discriminate].
  - intros b. destruct (run_facts (code_limits E) s b Hs eq_refl) as [_ H']. unfold demangle_into. split.
    + intros He. rewrite He in H'. destruct H' as [_ [[H' _]|H']]; [apply H'; reflexivity|discriminate].
    + intros He. rewrite He in H'. destruct H' as (t & Hb & Ht & _). exists t. split; [|exact Hb].
      eapply Forall_impl; [|exact Ht]. intros c. apply from_input_scalar; assumption.
Qed.
Print Assumptions output_is_utf8.

(** ** C07 *)
(** C07.  Every character of a result is ASCII or occurs in the input. *)
Theorem no_invented_characters : forall (E : env) (s t : str), rust_str s -> demangle E s = Ok t ->
  forall c, In c t -> (c < 128)%N \/ In c s.
Proof.
  intros E s t Hs Ht c Hc. pose proof (demangle_facts (code_limits E) s Hs eq_refl) as H. unfold demangle in Ht. rewrite Ht in H.
  destruct H as [H _]. rewrite Forall_forall in H. apply H. assumption.
Qed.
Print Assumptions no_invented_characters.
Corollary ascii_in_ascii_out : forall (E : env) (s t : str), Forall (fun c => (c < 128)%N) s ->
  demangle E s = Ok t -> Forall (fun c => (c < 128)%N) t.
Proof.
  intros E s t Hs Ht. apply Forall_forall. intros c Hc.
  assert (Hr : rust_str s) by (eapply Forall_impl; [|exact Hs]; apply ascii_scalar).
  destruct (no_invented_characters E s t Hr Ht c Hc) as [H|H]; [assumption|]. rewrite Forall_forall in Hs. auto.
Qed.
Print Assumptions ascii_in_ascii_out.
(** The hypotheses of C06 and C07 are met by a symbol with a non-ASCII name and one with a
    numeric escape. *)
Example characters_example :
  demangle (env_of 0) (L "?" ++ [0xE9]%N ++ L "@@3HA") = Ok (L "int " ++ [0xE9]%N) /\
  demangle (env_of 0) (L "??_C@_02ABC@?$OJ?f?$AA@") = Ok (L """\xE9\xE6""").
Proof. split; vm_compute; reflexivity. Qed.

(** ** C08 *)
Lemma lim_str (E : env) (t : str) (b b' : buf) : b_bytes b = b_bytes b' ->
  snd (w_str E t b) = snd (w_str E t b') /\
  b_bytes (fst (w_str E t b)) = b_bytes (fst (w_str E t b')).
Proof.
  intros Hb. unfold w_str. destruct t as [|c t]; [auto|]. rewrite Hb. destruct (_ <? _)%N; cbn; auto.
Qed.
Lemma into_cap_irrelevant E s c c' :
  fst (demangle_into_with E s (mkBuf [] c)) = fst (demangle_into_with E s (mkBuf [] c')) /\
  (fst (demangle_into_with E s (mkBuf [] c)) = Ok tt ->
   b_bytes (snd (demangle_into_with E s (mkBuf [] c))) = b_bytes (snd (demangle_into_with E s (mkBuf [] c')))).
Proof.
  unfold demangle_into_with, clear. cbn [b_cap]. destruct (parse E s) as [[h t]|e| |]; try (split; [reflexivity|discriminate]).
  assert (Hw : relw (fun _ => False) False (output E (s_store t) KSym h) (output E (s_store t) KSym h)).
  { apply relw_output; [split; auto|]. intros u b b' Hb. right. destruct (lim_str E u b b' Hb) as (H1 & H2). split; auto. }
  specialize (Hw (mkBuf [] c) (mkBuf [] c') eq_refl).
  destruct (output E (s_store t) KSym h (mkBuf [] c)) as [ob r], (output E (s_store t) KSym h (mkBuf [] c')) as [ob' r'].
  destruct Hw as [Hbad|[Heq Hb]]; cbn [fst snd] in *; [destruct r; destruct Hbad|]. subst r'.
  destruct r as [[]|e| |]; cbn [fst snd]; try (split; [reflexivity|discriminate]).
  specialize (Hb eq_refl). unfold beq in Hb. rewrite Hb. destruct (from_utf8 (b_bytes ob')); cbn; split; auto; discriminate.
Qed.

(** C08.  The outcome of [demangle_into] does not depend on the previous contents or capacity of
    the buffer and agrees with [demangle]: same error, or the buffer holds exactly (the UTF-8
    encoding of) the string [demangle] returns. *)
Theorem buffer_is_irrelevant : forall (E : env) (s : str) (buf : string_buf), rust_str s ->
  match demangle E s with
  | Ok t => fst (demangle_into E s buf) = Ok tt /\ b_bytes (snd (demangle_into E s buf)) = utf8 t
  | Err e => fst (demangle_into E s buf) = Err e
  | _ => False
  end.
Proof.
  intros E s b Hs. unfold demangle, demangle_into. rewrite demangle_with_into.
  assert (Hcl : demangle_into_with (code_limits E) s b = demangle_into_with (code_limits E) s (mkBuf [] (b_cap b))) by reflexivity.
  rewrite Hcl. destruct (into_cap_irrelevant (code_limits E) s 0 (b_cap b)) as [H1 H2].
  destruct (run_facts (code_limits E) s (mkBuf [] 0) Hs eq_refl) as [_ H3].
  destruct (demangle_into_with (code_limits E) s (mkBuf [] 0)) as [r b0]; cbn [fst snd] in *.
  rewrite <- H1. destruct r as [[]|e| |]; try contradiction; [|reflexivity].
  destruct H3 as (t & Hb & Ht & _). rewrite Hb, (from_utf8_ok s t Hs Ht). split; [reflexivity|].
  rewrite <- H2 by reflexivity. exact Hb.
Qed.
Print Assumptions buffer_is_irrelevant.
Example buffer_example : demangle_into (env_of 0) (L "?x@@3HA") (mkBuf (utf8 (L "left over")) 1) =
  (Ok tt, mkBuf (utf8 (L "int x")) 8).
Proof. vm_compute. reflexivity. Qed.

(** ** C09 *)
(** C09.  After a failed call the buffer is empty; after any call its capacity is at least what
    it was. *)
Theorem failure_empties_buffer : forall (E : env) (s : str) (buf : string_buf), rust_str s ->
  (b_cap buf <= b_cap (snd (demangle_into E s buf)))%N /\
  forall e, fst (demangle_into E s buf) = Err e -> b_bytes (snd (demangle_into E s buf)) = [].
Proof.
  intros E s b Hs. destruct (run_facts (code_limits E) s b Hs eq_refl) as [Hc H]. split; [exact Hc|].
  intros e He. unfold demangle_into in *. rewrite He in H. apply H.
Qed.
Print Assumptions failure_empties_buffer.
(** Failure while parsing, and failure while printing (a tiny output limit). *)
Example failure_example :
  demangle_into (env_of 0) (L "?x@@3") (mkBuf (utf8 (L "left over")) 100) = (Err InvalidType, mkBuf [] 100) /\
  demangle_into_with {| e_flags := 0; e_alnum := fun _ => true; e_grow := whole (fun c _ => N.max 8 (2 * c)); e_nodes := 2048; e_out := 5 |}
    (L "?x@@3HA") (mkBuf [] 0) = (Err (Io OutOfMemory), mkBuf [] 8).
Proof. split; vm_compute; reflexivity. Qed.
