(** C03, C05, C23: recursion depth, node budget, output limit and how they are reported. *)
From Verif Require Import Api Utf8 Wf PrintOk Lex ParseOk Thr Safety Pieces.

(** ** Specification vocabulary *)
(** The same machine with another node budget, or another output limit. *)
Definition with_nodes (E : env) (n : N) : env :=
  {| e_flags := e_flags E; e_alnum := e_alnum E; e_grow := e_grow E; e_nodes := n; e_out := e_out E |}.
Definition with_out (E : env) (o : N) : env :=
  {| e_flags := e_flags E; e_alnum := e_alnum E; e_grow := e_grow E; e_nodes := e_nodes E; e_out := o |}.

(** ** Instances of the threshold pass *)
Section Nodes.
  Variable E : env.
  Notation F := (lim (e_flags E) (e_alnum E) (e_grow E) (fun i => i) (fun _ => e_out E)).
  Lemma nodes_str t : thrw MaliciousInput True (fun i => w_str (F i) t).
  Proof.
    assert (H : thrw MaliciousInput True (fun _ : N => w_str E t)).
    { apply thrw_const. intros b. unfold w_str. destruct t; [discriminate|]. destruct (_ <? _)%N; discriminate. }
    intros b. destruct (H b) as (k & b' & r & H1 & H2 & H3). exists k, b', r. split; [exact H1|]. split; [exact H2|].
    intros i. rewrite (w_str_ext (F i) E) by reflexivity. exact (H3 i).
  Qed.
  Lemma nodes_intern n : thr MaliciousInput N.of_nat True (fun i => intern (F i) n).
  Proof.
    intros s. exists (N.of_nat (length (s_store s) + 1)), (Ok (length (s_store s), set_store (s_store s ++ [n]) s)).
    split; [discriminate|]. unfold sz. split; [lia|]. split.
    - intros a s' H. injection H as <- <-. cbn. rewrite app_length. cbn. lia.
    - intros i _. unfold intern. cbn [e_nodes lim].
      destruct (N.ltb_spec i (N.of_nat (length (s_store s) + 1))), (N.leb_spec (N.of_nat (length (s_store s) + 1)) i); try reflexivity; lia.
  Qed.
End Nodes.
Section Outs.
  Variable E : env.
  Notation F := (lim (e_flags E) (e_alnum E) (e_grow E) (fun _ => e_nodes E) (fun i => i)).
  Lemma outs_str t : thrw (Io OutOfMemory) False (fun i => w_str (F i) t).
  Proof.
    intros b. destruct t as [|c t].
    - exists 0%N, b, (Ok tt). split; [discriminate|]. split; [contradiction|]. intros i. destruct (N.leb_spec 0 i); [reflexivity|lia].
    - set (len := N.of_nat (length (b_bytes b) + length (utf8 (c :: t)))).
      set (ps := clip (p_cut (e_grow E) (b_bytes b) (c :: t)) (length (utf8 (c :: t)))).
      exists (len + 1)%N, (mkBuf (b_bytes b ++ utf8 (c :: t)) (all_cap E ps (length (b_bytes b)) (b_cap b))), (Ok tt).
      split; [discriminate|]. split; [contradiction|]. intros i. unfold w_str. cbn [e_out e_grow lim]. fold len. fold ps.
      destruct (N.ltb_spec len i), (N.leb_spec (len + 1) i); try reflexivity; try lia.
      rewrite part_cap_fits by (unfold ps; rewrite clip_total; exact H). rewrite (all_cap_ext (F i) E) by reflexivity. reflexivity.
  Qed.
  Lemma outs_intern n : thr (Io OutOfMemory) (fun _ => 0%N) False (fun i => intern (F i) n).
  Proof.
    change (fun i => intern (F i) n) with (fun _ : N => intern E n). apply thr_quiet.
    intros s. unfold intern. destruct (_ <? _)%N; (split; [discriminate|]); [discriminate|]. reflexivity.
  Qed.
End Outs.

(** The thresholds of a whole parse and of the printing that follows. *)
Lemma parse_nodes E s : exists k r, r <> Err MaliciousInput /\
  (forall h t, r = Ok (h, t) -> k = N.of_nat (length (s_store t))) /\
  forall n, parse (with_nodes E n) s = if (k <=? n)%N then r else Err MaliciousInput.
Proof.
  destruct (thr_knot MaliciousInput eq_refl N.of_nat True (e_flags E) (e_alnum E) (e_grow E) (fun i => i) (fun _ => e_out E)
    (nodes_str E) (nodes_intern E) (S (length s))) as [H _].
  destruct (H (init_st s)) as (k & r & H1 & _ & H3 & H4). exists k, r. split; [exact H1|]. split.
  - intros h t Hr. destruct (H3 _ _ Hr) as [_ He]. apply He. exact I.
  - intros n. apply H4. unfold sz. cbn. apply N.le_0_l.
Qed.
Lemma parse_outs E s : exists k r, r <> Err (Io OutOfMemory) /\
  forall o, parse (with_out E o) s = if (k <=? o)%N then r else Err (Io OutOfMemory).
Proof.
  destruct (thr_knot (Io OutOfMemory) eq_refl (fun _ => 0%N) False (e_flags E) (e_alnum E) (e_grow E) (fun _ => e_nodes E) (fun i => i)
    (outs_str E) (outs_intern E) (S (length s))) as [H _].
  destruct (H (init_st s)) as (k & r & H1 & _ & _ & H4). exists k, r. split; [exact H1|].
  intros n. apply H4. unfold sz. cbn. apply N.le_0_l.
Qed.
Lemma output_nodes E n sg k h b : output (with_nodes E n) sg k h b = output E sg k h b /\ snd (output E sg k h b) <> Err MaliciousInput.
Proof.
  destruct (thrw_output MaliciousInput True (e_flags E) (e_alnum E) (e_grow E) (fun i => i) (fun _ => e_out E)
    (nodes_str E) sg k h b) as (x & b' & r & H1 & H2 & H3). specialize (H2 I). subst x.
  assert (HE : E = lim (e_flags E) (e_alnum E) (e_grow E) (fun i => i) (fun _ => e_out E) (e_nodes E)) by (destruct E; reflexivity).
  pose proof (H3 (e_nodes E)) as Hb. pose proof (H3 n) as Ha. rewrite <- HE in Hb.
  replace (0 <=? n)%N with true in Ha by (symmetry; apply N.leb_le; lia).
  replace (0 <=? e_nodes E)%N with true in Hb by (symmetry; apply N.leb_le; lia). split.
  - rewrite Hb. exact Ha.
  - rewrite Hb. exact H1.
Qed.
Lemma output_outs E sg k h b : exists x b' r, r <> Err (Io OutOfMemory) /\
  forall o, if (x <=? o)%N then output (with_out E o) sg k h b = (b', r) else snd (output (with_out E o) sg k h b) = Err (Io OutOfMemory).
Proof.
  destruct (thrw_output (Io OutOfMemory) False (e_flags E) (e_alnum E) (e_grow E) (fun _ => e_nodes E) (fun i => i)
    (outs_str E) sg k h b) as (x & b' & r & H1 & _ & H3). exists x, b', r. auto.
Qed.

(** ** C05 *)
(** C05 (exact budget).  For every input there is a number [needed] such that, whatever the
    budget [n], the call is rejected with [MaliciousInput] when [n < needed] and gives one
    fixed other result when [needed <= n]; and [needed] is the number of nodes a successful
    parse has built. *)
Theorem node_budget_threshold : forall (E : env) (s : str), exists (needed : N) (r : res str),
  r <> Err MaliciousInput /\
  (forall n, demangle_with (with_nodes E n) s = if (needed <=? n)%N then r else Err MaliciousInput) /\
  (forall n h t, parse (with_nodes E n) s = Ok (h, t) -> N.of_nat (length (s_store t)) = needed).
Proof.
  intros E s. destruct (parse_nodes E s) as (k & r & H1 & H2 & H3).
  set (r' := match r with
             | Ok (h, t) => match output E (s_store t) KSym h (mkBuf [] 0) with
                            | (ob, Ok tt) => match from_utf8 (b_bytes ob) with Some t => Ok t | None => Err Utf8Error end
                            | (_, Err e) => Err e | (_, Panic) => Panic | (_, Fuel) => Fuel
                            end
             | Err e => Err e | Panic => Panic | Fuel => Fuel
             end).
  exists k, r'. split; [|split].
  - unfold r'. destruct r as [[h t]|e| |]; try discriminate; [|congruence].
    destruct (output_nodes E 0 (s_store t) KSym h (mkBuf [] 0)) as [_ Hne].
    destruct (output E (s_store t) KSym h (mkBuf [] 0)) as [ob [[]|e| |]]; cbn [snd] in *; try discriminate; [|congruence].
    destruct (from_utf8 _); discriminate.
  - intros n. unfold demangle_with, demangle_into_with, clear. rewrite H3. cbn [b_cap]. destruct (k <=? n)%N; [|reflexivity].
    unfold r'. destruct r as [[h t]|e| |]; try reflexivity.
    destruct (output_nodes E n (s_store t) KSym h (mkBuf [] 0)) as [-> _].
    destruct (output E (s_store t) KSym h (mkBuf [] 0)) as [ob [[]|e| |]]; try reflexivity.
    destruct (from_utf8 (b_bytes ob)) eqn:Hu; [rewrite Hu|]; reflexivity.
  - intros n h t Hp. rewrite H3 in Hp. destruct (k <=? n)%N; [|discriminate]. symmetry. apply (H2 h). exact Hp.
Qed.
Print Assumptions node_budget_threshold.

(** C05 (the code's budget).  Behind every successful result there is a parse that built at
    most 2048 nodes. *)
Theorem success_within_budget : forall (E : env) (s t : str), demangle E s = Ok t ->
  exists h st, parse (code_limits E) s = Ok (h, st) /\ (length (s_store st) <= 2048)%nat.
Proof.
  intros E s t H. destruct (node_budget_threshold (code_limits E) s) as (k & r & H1 & H2 & H3).
  unfold demangle in H. change (code_limits E) with (with_nodes (code_limits E) 2048) in H. rewrite H2 in H.
  destruct (N.leb_spec k 2048) as [Hk|Hk]; [|discriminate].
  destruct (parse (code_limits E) s) as [[h st]|e| |] eqn:Hp.
  - exists h, st. split; [reflexivity|]. change (code_limits E) with (with_nodes (code_limits E) 2048) in Hp. apply H3 in Hp. lia.
  - specialize (H2 2048%N). unfold demangle_with, demangle_into_with, clear in H2.
    change (with_nodes (code_limits E) 2048) with (code_limits E) in H2. rewrite Hp in H2. apply N.leb_le in Hk. rewrite Hk in H2. congruence.
  - specialize (H2 2048%N). unfold demangle_with, demangle_into_with, clear in H2.
    change (with_nodes (code_limits E) 2048) with (code_limits E) in H2. rewrite Hp in H2. apply N.leb_le in Hk. rewrite Hk in H2. congruence.
  - specialize (H2 2048%N). unfold demangle_with, demangle_into_with, clear in H2.
    change (with_nodes (code_limits E) 2048) with (code_limits E) in H2. rewrite Hp in H2. apply N.leb_le in Hk. rewrite Hk in H2. congruence.
Qed.
Print Assumptions success_within_budget.

(** C05 (rejection).  An input that under some larger budget is parsed into more than 2048 nodes
    is rejected with [MaliciousInput]. *)
Theorem over_budget_rejected : forall (E : env) (s : str) (n : N) (h : handle) (st : st),
  parse (with_nodes (code_limits E) n) s = Ok (h, st) -> (2048 < length (s_store st))%nat ->
  demangle E s = Err MaliciousInput.
Proof.
  intros E s n h st Hp Hl. destruct (node_budget_threshold (code_limits E) s) as (k & r & H1 & H2 & H3).
  apply H3 in Hp. unfold demangle. change (code_limits E) with (with_nodes (code_limits E) 2048). rewrite H2.
  destruct (N.leb_spec k 2048); [lia|reflexivity].
Qed.
Print Assumptions over_budget_rejected.

(** ** C23 *)
(** C23 (output limit).  The output limit too is a threshold, reported as
    [Io OutOfMemory] and nothing else. *)
Theorem output_limit_threshold : forall (E : env) (s : str), exists (needed : N) (r : res str),
  r <> Err (Io OutOfMemory) /\
  forall o, demangle_with (with_out E o) s = if (needed <=? o)%N then r else Err (Io OutOfMemory).
Proof.
  intros E s. destruct (parse_outs E s) as (k & r & H1 & H3). destruct r as [[h t]|e| |].
  - destruct (output_outs E (s_store t) KSym h (mkBuf [] 0)) as (x & b' & r & F1 & F2).
    exists (N.max k x), (match r with
                | Ok tt => match from_utf8 (b_bytes b') with Some t => Ok t | None => Err Utf8Error end
                | Err e => Err e | Panic => Panic | Fuel => Fuel end).
    split; [destruct r as [[]|e| |]; try discriminate; [destruct (from_utf8 _); discriminate|congruence]|].
    intros o. unfold demangle_with, demangle_into_with, clear. rewrite H3. cbn [b_cap]. specialize (F2 o).
    destruct (N.leb_spec k o), (N.leb_spec (N.max k x) o); try lia; [| |reflexivity].
    + destruct (N.leb_spec x o); [|lia]. rewrite F2. destruct r as [[]|e| |]; try reflexivity.
      destruct (from_utf8 (b_bytes b')) eqn:Hu; [rewrite Hu|]; reflexivity.
    + destruct (N.leb_spec x o); [lia|]. destruct (output (with_out E o) (s_store t) KSym h (mkBuf [] 0)) as [ob r'].
      cbn [snd] in F2. subst r'. reflexivity.
  - exists k, (Err e). split; [congruence|]. intros o. unfold demangle_with, demangle_into_with, clear. rewrite H3.
    destruct (k <=? o)%N; reflexivity.
  - exists k, Panic. split; [discriminate|]. intros o. unfold demangle_with, demangle_into_with, clear. rewrite H3.
    destruct (k <=? o)%N; reflexivity.
  - exists k, Fuel. split; [discriminate|]. intros o. unfold demangle_with, demangle_into_with, clear. rewrite H3.
    destruct (k <=? o)%N; reflexivity.
Qed.
Print Assumptions output_limit_threshold.

(** C23 (reporting).  [MaliciousInput] is returned exactly when the node budget is too small and
    vanishes under every sufficient budget; [Io OutOfMemory] is returned exactly when the output
    limit is too small and vanishes under every sufficient limit; and [Io UnexpectedEof] only
    when some suffix that should start a symbol -- the whole input, or what follows a scope
    discriminator ['?' number '?'] -- starts with neither ['?'] nor ['.']. *)
Theorem limit_errors : forall (E : env) (s : str), rust_str s ->
  (exists k, (demangle E s = Err MaliciousInput <-> (2048 < k)%N) /\
     forall n, (k <= n)%N -> demangle_with (with_nodes (code_limits E) n) s <> Err MaliciousInput) /\
  (exists k, (demangle E s = Err (Io OutOfMemory) <-> (2 ^ 20 < k)%N) /\
     forall o, (k <= o)%N -> demangle_with (with_out (code_limits E) o) s <> Err (Io OutOfMemory)) /\
  (demangle E s = Err (Io UnexpectedEof) ->
   exists p t, s = p ++ t /\ (p = [] \/ scope_discriminator p) /\
     (forall r, t <> ch "?" :: r) /\ (forall r, t <> ch "." :: r)).
Proof.
  intros E s Hs. split; [|split].
  - destruct (node_budget_threshold (code_limits E) s) as (k & r & H1 & H2 & _). exists k. split.
    + unfold demangle. specialize (H2 2048%N). change (with_nodes (code_limits E) 2048) with (code_limits E) in H2. rewrite H2.
      destruct (N.leb_spec k 2048); split; intros; try lia; try congruence; try reflexivity.
    + intros n Hn. rewrite H2. apply N.leb_le in Hn. rewrite Hn. exact H1.
  - destruct (output_limit_threshold (code_limits E) s) as (k & r & H1 & H2). exists k. split.
    + unfold demangle. specialize (H2 1048576%N). change (with_out (code_limits E) 1048576) with (code_limits E) in H2. rewrite H2.
      change (2 ^ 20)%N with 1048576%N. destruct (N.leb_spec k 1048576); split; intros; try lia; try congruence; try reflexivity.
    + intros n Hn. rewrite H2. apply N.leb_le in Hn. rewrite Hn. exact H1.
  - intros He. pose proof (demangle_facts (code_limits E) s Hs eq_refl) as H. unfold demangle in He. rewrite He in H.
    destruct H as [(_ & H & _)|H]; [|discriminate]. destruct (H eq_refl) as (p & t & Hp & Hc & Hq & Hd). exists p, t. auto.
Qed.
Print Assumptions limit_errors.
(** All three errors occur: a nested symbol that is not one, and the two limits (shown with
    small limits so that the examples stay small). *)
Example limit_errors_example :
  demangle (env_of 0) (L "?x@?1?f@3HA") = Err (Io UnexpectedEof) /\
  demangle_with (with_nodes (env_of 0) 5) (L "?x@@3HA") = Err MaliciousInput /\
  demangle_with (with_nodes (env_of 0) 6) (L "?x@@3HA") = Ok (L "int x") /\
  demangle_with (with_out (env_of 0) 5) (L "?x@@3HA") = Err (Io OutOfMemory) /\
  demangle_with (with_out (env_of 0) 6) (L "?x@@3HA") = Ok (L "int x").
Proof. repeat split; vm_compute; reflexivity. Qed.
