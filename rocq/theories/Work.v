(** C43: the work of a whole call.  [Meter.parse] is the parser with a meter; here its readings are
    bounded, and together with C38 so is the work of [demangle]. *)
From Verif Require Import Parser Api Utf8 Wf Rel RelOut Safety Effort Meter Metered MeterCost MeterShown MeterStore MeterScan.

(** ** Specification *)
(** Nodes visited by all renderings made while parsing. *)
Definition visits_parsing (m : meter) : N := fold_right (fun v n => (ev_visits v + n)%N) 0%N (shown m).
(** What a call does: the operations of the parser, the nodes visited by the renderings it makes while
    parsing, and the nodes visited when the result is printed (C38). *)
Definition work (E : env) (s : str) : N :=
  let (r, m) := Meter.parse (code_limits E) s in
  (N.of_nat (ops m) + visits_parsing m +
   match r with Ok (h, st) => visits (code_limits E) (s_store st) KSym h | _ => 0 end)%N.

(** Bytes written by all renderings made while parsing. *)
Definition bytes_parsing (m : meter) : N := fold_right (fun v n => (N.of_nat (ev_bytes v) + n)%N) 0%N (shown m).
(** Handles held by the node arrays of a graph. *)
Definition handles_held (sg : store) : nat :=
  fold_right (fun n k => match n with NNodes l => length l | _ => 0 end + k) 0 sg.

(** C43 (the meter is faithful).  The metered parser returns what the parser returns. *)
Theorem metering_is_faithful : forall (E : env) (s : str), fst (Meter.parse E s) = Parser.parse E s.
Proof. exact metered_parse. Qed.
Print Assumptions metering_is_faithful.

(** C43 (the renderings are counted faithfully).  A rendering made while parsing is the printing of an
    identifier, or of the symbol of a local scope between two texts; its event says whether the
    printing ended and, if so, how many bytes it wrote. *)
Theorem renderings_are_faithful : forall (E : env) (sg : store) (w : (kind -> handle -> W) -> W),
  (exists id, w = fun out => out KIdent id) \/ (exists a h b, w = fun out => w_str E a >> out KSym h >> w_str E b) ->
  let v := run_event E w sg in
  let (b, r) := w (output E sg) (mkBuf [] 0) in
  ev_nodes v = length sg /\ (ev_done v = true <-> r = Ok tt) /\ (r = Ok tt -> ev_bytes v = length (b_bytes b)).
Proof.
  intros E sg w Hw. cbv zeta.
  assert (H : relw (fun _ => False) False (w (out_ticking (S (length sg)) E sg OFull)) (w (output E sg))).
  { destruct Hw as [[id ->]|(a & h & b & ->)]; [apply relw_ticking|].
    assert (Hstr : forall t, relw (fun _ => False) False (w_str E t) (w_str E t)).
    { intros u c c' Hc. right. destruct (lim_str E u c c' Hc) as (H1 & H2). split; auto. }
    apply relw_seq; [apply Hstr|]. apply relw_seq; [apply relw_ticking|apply Hstr]. }
  specialize (H (mkBuf [] (e_out E)) (mkBuf [] 0) eq_refl). unfold run_event.
  destruct (w (out_ticking _ _ _ _) _) as [b1 r1]. destruct (w (output E sg) _) as [b2 r2]. cbv beta iota zeta in H. cbn [fst snd] in H.
  cbn [ev_nodes ev_done ev_bytes].
  destruct H as [Hbad|[H1 H2]]; [exfalso; destruct r1; exact Hbad|]. cbn [snd] in H1. subst r2. split; [reflexivity|]. split.
  - destruct r1 as [[]|e| |]; split; intros Hx; try reflexivity; discriminate Hx.
  - intros Hx. specialize (H2 Hx). unfold beq in H2. cbn [fst] in H2. rewrite H2. reflexivity.
Qed.
Print Assumptions renderings_are_faithful.

Lemma parse_meter E s : let m := snd (Meter.parse E s) in
  ops m <= 160 * length s + 20 /\ length (shown m) <= length s /\ Forall (ev_ok E) (shown m).
Proof.
  cbv zeta. unfold Meter.parse, Meter.parse_with.
  destruct (c_knot E (S (length s))) as [Hc _]. destruct (s_knot E (S (length s))) as [Hs _].
  specialize (Hc (init_st s)). specialize (Hs (init_st s)).
  assert (Hi : inv E (init_st s)).
  { unfold inv, init_st. cbn [s_store s_names length]. split; [lia|]. split; [|constructor]. intros [|x] c Hx; discriminate Hx. }
  specialize (Hs Hi (Forall_nil _)).
  destruct (k_parse _ _) as [r m]. destruct Hs as [H1 H2]. cbn [snd].
  assert (Ht : ms_str (s_ms (init_st s)) = s) by reflexivity.
  unfold room, MeterShown.count in H2. unfold worth, KC in Hc. rewrite Ht in H2, Hc.
  split; [|split; [|exact H1]].
  - destruct r as [[a st]|e| |]; lia.
  - destruct r as [[a st]|e| |]; lia.
Qed.

(** C43 (parsing).  On every input whatever, accepted or not: at most [160 |input| + 20] operations and
    one rendering per character; each rendering prints at most 2048 nodes and writes at most 2^20 bytes,
    one that comes to an end visits at most [4 (nodes + 1)] nodes for every byte it writes (plus one),
    and none visits more than about 2^33. *)
Theorem work_of_parsing : forall (E : env) (s : str),
  let m := snd (Meter.parse (code_limits E) s) in
  ops m <= 160 * length s + 20 /\
  length (shown m) <= length s /\
  (forall v, In v (shown m) ->
    ev_nodes v <= 2048 /\ (N.of_nat (ev_bytes v) <= 2 ^ 20)%N /\
    (ev_done v = true -> (ev_visits v <= 4 * (N.of_nat (ev_nodes v) + 1) * (N.of_nat (ev_bytes v) + 1))%N) /\
    (ev_visits v <= 8196 * (2 ^ 20 + 2049) + 1)%N).
Proof.
  intros E s m. destruct (parse_meter (code_limits E) s) as (H1 & H2 & H3). fold m in H1, H2, H3.
  split; [exact H1|]. split; [exact H2|]. intros v Hv. rewrite Forall_forall in H3. specialize (H3 v Hv).
  unfold ev_ok in H3. cbn [code_limits e_nodes e_out] in H3. unfold max_nodes, out_limit in H3. change (2 ^ 20)%N with 1048576%N.
  destruct H3 as (N1 & B1 & V1). split; [lia|]. split; [lia|]. split.
  - intros Hd. rewrite Hd in V1. nia.
  - destruct (ev_done v); nia.
Qed.
Print Assumptions work_of_parsing.

(** C43.  The work of a whole call, parsing and printing, is at most a constant per character. *)
Theorem work_bounded : forall (E : env) (s : str), rust_str s ->
  (work E s <= (N.of_nat (length s) + 1) * (8196 * (2 ^ 20 + 2049) + 161))%N.
Proof.
  intros E s Hs. unfold work. pose proof (metered_parse (code_limits E) s) as Hf. destruct (work_of_parsing E s) as (H1 & H2 & H3).
  destruct (Meter.parse (code_limits E) s) as [r m]. cbn [fst snd] in *.
  set (B := (8196 * (2 ^ 20 + 2049) + 1)%N) in *.
  assert (Hv : (visits_parsing m <= N.of_nat (length (shown m)) * B)%N).
  { unfold visits_parsing. clear - H3. induction (shown m) as [|v l IH]; cbn [fold_right length]; [lia|].
    assert (ev_visits v <= B)%N by (apply H3; left; reflexivity).
    assert (fold_right (fun v n => (ev_visits v + n)%N) 0%N l <= N.of_nat (length l) * B)%N by (apply IH; intros; apply H3; right; assumption). lia. }
  assert (Hp : (match r with Ok (h, st) => visits (code_limits E) (s_store st) KSym h | _ => 0 end <= B)%N).
  { destruct r as [[h st]|e| |]; try lia. symmetry in Hf. apply (printing_effort E s h st Hs Hf). }
  assert (HB : (1 <= B)%N) by (unfold B; lia).
  replace (8196 * (2 ^ 20 + 2049) + 161)%N with (B + 160)%N by (unfold B; lia).
  assert (N.of_nat (length (shown m)) * B <= N.of_nat (length s) * B)%N by (apply N.mul_le_mono_r; lia). lia.
Qed.
Print Assumptions work_bounded.

Lemma parse_nodes E s : let m := snd (Meter.parse E s) in
  (N.of_nat (length (shown m)) <= e_nodes E + 1)%N /\
  match fst (Meter.parse E s) with
  | Ok (_, st) => (N.of_nat (length (s_store st)) <= e_nodes E)%N /\ length (s_store st) + handles_held (s_store st) <= ops m
  | _ => True
  end.
Proof.
  cbv zeta. unfold Meter.parse, Meter.parse_with.
  destruct (n_knot E (S (length s))) as [Hn _]. specialize (Hn (init_st s)).
  assert (Hi : left_ E (init_st s) = (Z.of_N (e_nodes E) + 1)%Z) by (unfold left_, init_st; cbn [s_store length]; lia).
  rewrite Hi in Hn. specialize (Hn ltac:(lia)). destruct (k_parse _ _) as [r m]. cbn [fst snd]. unfold MeterStore.count in Hn.
  destruct r as [[a st]|e| |]; [|split; [lia|exact I]..].
  destruct Hn as (H1 & H2 & H3). split; [lia|]. split; [unfold left_ in H1; lia|].
  assert (Hc : forall sg, cells sg = length sg + handles_held sg).
  { induction sg as [|n sg IH]; [reflexivity|]. cbn [cells handles_held fold_right length]. unfold cells, handles_held in IH. rewrite IH.
    unfold slots. lia. }
  change (cells (s_store (init_st s))) with 0 in H3. rewrite Hc in H3. exact H3.
Qed.

(** C43 (memory).  On every input whatever: at most 2049 renderings, which write at most 2049 * 2^20
    bytes altogether, however long the input; and the graph of an accepted input has at most 2048 nodes
    and, in its node arrays, fewer handles than there were operations. *)
Theorem memory_of_parsing : forall (E : env) (s : str),
  let (r, m) := Meter.parse (code_limits E) s in
  length (shown m) <= 2049 /\ (bytes_parsing m <= 2049 * 2 ^ 20)%N /\
  match r with
  | Ok (_, st) => length (s_store st) <= 2048 /\ length (s_store st) + handles_held (s_store st) <= ops m
  | _ => True
  end.
Proof.
  intros E s. pose proof (parse_nodes (code_limits E) s) as H. cbv zeta in H. destruct (work_of_parsing E s) as (_ & _ & Hb).
  destruct (Meter.parse (code_limits E) s) as [r m]. cbn [fst snd] in *. cbn [code_limits e_nodes] in H. unfold max_nodes in H.
  destruct H as [H1 H2]. assert (H1' : length (shown m) <= 2049) by lia. split; [exact H1'|]. split.
  - assert (Hs : (bytes_parsing m <= N.of_nat (length (shown m)) * 2 ^ 20)%N).
    { unfold bytes_parsing. clear - Hb. induction (shown m) as [|v l IH]; [cbn [fold_right length]; lia|].
      assert (Hv : (N.of_nat (ev_bytes v) <= 2 ^ 20)%N) by (apply Hb; left; reflexivity).
      assert (Hl : (fold_right (fun v n => (N.of_nat (ev_bytes v) + n)%N) 0%N l <= N.of_nat (length l) * 2 ^ 20)%N) by (apply IH; intros; apply Hb; right; assumption).
      cbn [fold_right length]. revert Hv Hl. generalize (fold_right (fun v n => (N.of_nat (ev_bytes v) + n)%N) 0%N l) (2 ^ 20)%N. intros; nia. }
    assert (N.of_nat (length (shown m)) * 2 ^ 20 <= 2049 * 2 ^ 20)%N by (apply N.mul_le_mono_r; lia). lia.
  - destruct r as [[h st]|e| |]; try exact I. split; [lia|apply H2].
Qed.
Print Assumptions memory_of_parsing.

(** C43.  Beyond the operations of the parser, the work of a call does not grow with its input. *)
Theorem work_is_linear : forall (E : env) (s : str), rust_str s ->
  (work E s <= 160 * N.of_nat (length s) + 20 + 2050 * (8196 * (2 ^ 20 + 2049) + 1))%N.
Proof.
  intros E s Hs. unfold work. pose proof (metered_parse (code_limits E) s) as Hf. destruct (work_of_parsing E s) as (H1 & _ & H3).
  pose proof (memory_of_parsing E s) as Hm.
  destruct (Meter.parse (code_limits E) s) as [r m]. cbn [fst snd] in *. destruct Hm as [H2 _].
  set (B := (8196 * (2 ^ 20 + 2049) + 1)%N) in *.
  assert (Hv : (visits_parsing m <= N.of_nat (length (shown m)) * B)%N).
  { unfold visits_parsing. clear - H3. induction (shown m) as [|v l IH]; cbn [fold_right length]; [lia|].
    assert (ev_visits v <= B)%N by (apply H3; left; reflexivity).
    assert (fold_right (fun v n => (ev_visits v + n)%N) 0%N l <= N.of_nat (length l) * B)%N by (apply IH; intros; apply H3; right; assumption). lia. }
  assert (Hp : (match r with Ok (h, st) => visits (code_limits E) (s_store st) KSym h | _ => 0 end <= B)%N).
  { destruct r as [[h st]|e| |]; try lia. symmetry in Hf. apply (printing_effort E s h st Hs Hf). }
  assert (N.of_nat (length (shown m)) * B <= 2049 * B)%N by (apply N.mul_le_mono_r; lia). lia.
Qed.
Print Assumptions work_is_linear.

(** C43 (searching).  On every input whatever, the searches the parser makes (for the ['@'] that ends a name,
    and for the ['?'] that ends the number of a local scope), and the recounting of what they take, pass over
    at most six characters altogether
    for every character of the input: nothing is searched again and again. *)
Theorem searching_is_linear : forall (E : env) (s : str), scanned (snd (Meter.parse E s)) <= 6 * length s.
Proof.
  intros E s. unfold Meter.parse, Meter.parse_with. destruct (g_knot E (S (length s))) as (H & _). specialize (H _ (init_st s) eq_refl).
  change (ms_str (s_ms (init_st s))) with s in H. pose proof (unseen_le s). unfold weight in H.
  destruct (k_parse _ _) as [[[a st]|e| |] m]; cbn [snd]; lia.
Qed.
Print Assumptions searching_is_linear.

(** A function template instance over a class template instance over another, declared in a local
    scope: 39 characters, 772 operations, 24 characters searched, three renderings ("B<int>", "A<class B<int> >" and the scope). *)
Example work_example :
  let s := L "??$f@V?$A@V?$B@H@@@@@?1??g@@YAXXZ@YAXXZ" in
  length s = 39 /\
  snd (Meter.parse (env_of 0) s) = mkMeter 772 [mkEvent 8 6 3 true; mkEvent 13 15 7 true; mkEvent 25 27 7 true] 24 /\
  work (env_of 0) s = 807%N /\
  demangle (env_of 0) s = Ok (L "void __cdecl `void __cdecl g(void)'::`2'::f<class A<class B<int>>>(void)").
Proof. vm_compute. repeat split; reflexivity. Qed.
