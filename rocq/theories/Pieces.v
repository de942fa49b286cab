(** Facts about writing a text in pieces ([w_str], Output.v). *)
From Verif Require Import Output Utf8.

Definition total (ps : list nat) : nat := fold_right Nat.add 0 ps.
Lemma clip_total cut : forall n, total (clip cut n) = n.
Proof.
  induction cut as [|k cut IH]; intros n; cbn [clip total fold_right]; [lia|]. fold (total (clip cut (n - Nat.min k n))).
  rewrite IH. lia.
Qed.

(** The writing policy and the limit are all a write depends on. *)
Lemma part_len_ext E E' : e_out E = e_out E' -> forall ps l, part_len E ps l = part_len E' ps l.
Proof.
  intros H. induction ps as [|[|k] ps IH]; intros l; cbn [part_len]; [reflexivity|apply IH|]. rewrite H, IH. reflexivity.
Qed.
Lemma part_cap_ext E E' : e_out E = e_out E' -> e_grow E = e_grow E' ->
  forall ps l c, part_cap E ps l c = part_cap E' ps l c.
Proof.
  intros H G. induction ps as [|[|k] ps IH]; intros l c; cbn [part_cap]; [reflexivity|apply IH|]. unfold grow. rewrite H, G, IH. reflexivity.
Qed.
Lemma w_str_ext E E' s b : e_out E = e_out E' -> e_grow E = e_grow E' -> w_str E s b = w_str E' s b.
Proof.
  intros H G. unfold w_str. destruct s as [|c s]; [reflexivity|]. cbv zeta.
  rewrite (part_cap_ext E E' H G), (part_len_ext E E' H), H, G. reflexivity.
Qed.

(** All pieces of a text that fits are written. *)
Lemma part_len_fits E ps : forall l, (N.of_nat (l + total ps) < e_out E)%N -> part_len E ps l = total ps.
Proof.
  induction ps as [|k ps IH]; intros l H; [reflexivity|]. cbn [total fold_right] in *. fold (total ps) in *.
  destruct k as [|k]; cbn [part_len]; [apply IH; exact H|].
  replace (N.of_nat (l + S k) <? e_out E)%N with true by (symmetry; apply N.ltb_lt; lia). rewrite IH by lia. reflexivity.
Qed.
Fixpoint all_cap (E : env) (ps : list nat) (len : nat) (cap : N) : N :=
  match ps with
  | [] => cap
  | O :: ps => all_cap E ps len cap
  | k :: ps => all_cap E ps (len + k) (grow E cap (N.of_nat (len + k)))
  end.
Lemma part_cap_fits E ps : forall l c, (N.of_nat (l + total ps) < e_out E)%N -> part_cap E ps l c = all_cap E ps l c.
Proof.
  induction ps as [|k ps IH]; intros l c H; [reflexivity|]. cbn [total fold_right] in *. fold (total ps) in *.
  destruct k as [|k]; cbn [part_cap all_cap]; [apply IH; exact H|].
  replace (N.of_nat (l + S k) <? e_out E)%N with true by (symmetry; apply N.ltb_lt; lia). apply IH. lia.
Qed.
Lemma all_cap_ext E E' : e_grow E = e_grow E' -> forall ps l c, all_cap E ps l c = all_cap E' ps l c.
Proof. intros G. induction ps as [|[|k] ps IH]; intros l c; cbn [all_cap]; [reflexivity|apply IH|]. unfold grow. rewrite G, IH. reflexivity. Qed.

(** ** What the written pieces do to the capacity *)
Lemma part_len_le E ps : forall l, part_len E ps l <= total ps.
Proof.
  induction ps as [|[|k] ps IH]; intros l; cbn [part_len total fold_right]; [lia|apply IH|]. fold (total ps).
  destruct (_ <? _)%N; [|lia]. specialize (IH (l + S k)). lia.
Qed.
Lemma part_facts E ps : forall l c,
  let P := N.of_nat (l + part_len E ps l) in let c' := part_cap E ps l c in
  ((P <= c)%N -> c' = c) /\ ((N.of_nat l <= c)%N -> (P <= c')%N) /\ (c <= c')%N /\
  ((N.of_nat l < e_out E)%N -> (P < e_out E)%N).
Proof.
  induction ps as [|[|k] ps IH]; intros l c; cbn [part_len part_cap]; cbv zeta.
  - rewrite Nat.add_0_r. repeat split; lia.
  - apply IH.
  - destruct (N.ltb_spec (N.of_nat (l + S k)) (e_out E)) as [H|H]; [|rewrite Nat.add_0_r; repeat split; lia].
    specialize (IH (l + S k) (grow E c (N.of_nat (l + S k)))). cbv zeta in IH. rewrite <- Nat.add_assoc in IH.
    revert IH. generalize (part_cap E ps (l + S k) (grow E c (N.of_nat (l + S k)))) as c'.
    remember (l + S k) as l' eqn:El. generalize (part_len E ps l') as p.
    intros p c' (H1 & H2 & H3 & H4). assert (Hg : (c <= grow E c (N.of_nat l') /\ N.of_nat l' <= grow E c (N.of_nat l'))%N)
      by (unfold grow; destruct (N.leb_spec (N.of_nat l') c); lia).
    split; [|split; [|split]].
    + intros Hp. assert (Hc : grow E c (N.of_nat l') = c) by (unfold grow; destruct (N.leb_spec (N.of_nat l') c); [reflexivity|lia]).
      rewrite Hc in H1. apply H1. lia.
    + intros _. apply H2. lia.
    + lia.
    + intros _. apply H4. lia.
Qed.

(** ** The closed form is the literal one *)
Lemma pieces_eq E ps : forall bs b, total ps = length bs ->
  w_pieces E ps bs b =
    (mkBuf (b_bytes b ++ firstn (part_len E ps (length (b_bytes b))) bs) (part_cap E ps (length (b_bytes b)) (b_cap b)),
     if part_len E ps (length (b_bytes b)) =? total ps then Ok tt else Err (Io OutOfMemory)).
Proof.
  induction ps as [|[|k] ps IH]; intros bs b H.
  - cbn [w_pieces part_len part_cap total fold_right Nat.eqb firstn]. rewrite app_nil_r. destruct b; reflexivity.
  - cbn [w_pieces part_len part_cap]. rewrite IH by exact H. reflexivity.
  - cbn [total fold_right] in H. fold (total ps) in H. unfold w_pieces; fold w_pieces. cbn [part_len part_cap].
    destruct (_ <? _)%N eqn:E1.
    + rewrite IH by (rewrite skipn_length; lia). cbn [b_bytes b_cap]. rewrite app_length, firstn_length, Nat.min_l by lia.
      cbn [total fold_right]. fold (total ps). set (p := part_len E ps (length (b_bytes b) + S k)).
      f_equal; [f_equal|].
      * rewrite <- app_assoc. f_equal. rewrite <- (firstn_skipn (S k) bs) at 3. rewrite firstn_app, firstn_length, Nat.min_l by lia.
        replace (S k + p - S k) with p by lia. rewrite firstn_all2 with (n := S k + p) by (rewrite firstn_length; lia). reflexivity.
      * destruct (Nat.eqb_spec p (total ps)), (Nat.eqb_spec (S k + p) (S k + total ps)); try reflexivity; lia.
    + cbn [total fold_right]. rewrite app_nil_r. destruct b; reflexivity.
Qed.
Lemma part_len_over E ps : forall l, 0 < total ps -> (e_out E <= N.of_nat (l + total ps))%N -> part_len E ps l <> total ps.
Proof.
  induction ps as [|k ps IH]; intros l H H'; cbn [total fold_right] in *; [lia|]. fold (total ps) in *.
  destruct k as [|k]; cbn [part_len]; [apply IH; assumption|].
  destruct (N.ltb_spec (N.of_nat (l + S k)) (e_out E)) as [G|G]; [|lia].
  destruct (Nat.eq_dec (total ps) 0) as [Z|Z]; [rewrite Z in *; lia|].
  specialize (IH (l + S k) ltac:(lia) ltac:(lia)). lia.
Qed.

(** A text is written piece by piece, each through [BufWriter::write]. *)
Theorem w_str_pieces : forall E s b,
  w_str E s b = w_pieces E (clip (p_cut (e_grow E) (b_bytes b) s) (length (utf8 s))) (utf8 s) b.
Proof.
  intros E s b. rewrite pieces_eq by apply clip_total. unfold w_str. destruct s as [|c s].
  - cbn [utf8 flat_map length firstn].
    assert (H : forall cut, part_len E (clip cut 0) (length (b_bytes b)) = 0 /\ part_cap E (clip cut 0) (length (b_bytes b)) (b_cap b) = b_cap b).
    { induction cut as [|k cut IH]; cbn [clip part_len part_cap]; [split; reflexivity|]. rewrite Nat.min_0_r. cbn [Nat.sub part_len part_cap]. exact IH. }
    destruct (H (p_cut (e_grow E) (b_bytes b) [])) as [-> ->]. rewrite clip_total, firstn_nil, app_nil_r. destruct b; reflexivity.
  - cbv zeta. set (bs := utf8 (c :: s)). set (ps := clip (p_cut (e_grow E) (b_bytes b) (c :: s)) (length bs)).
    assert (Ht : total ps = length bs) by apply clip_total.
    assert (Hl : 0 < length bs) by (unfold bs; cbn [utf8 flat_map]; rewrite app_length, utf8_char_len; pose proof (utf8_len_pos c); lia).
    destruct (N.ltb_spec (N.of_nat (length (b_bytes b) + length bs)) (e_out E)) as [G|G].
    + rewrite part_len_fits by (rewrite Ht; exact G). rewrite Ht, firstn_all, Nat.eqb_refl. reflexivity.
    + destruct (Nat.eqb_spec (part_len E ps (length (b_bytes b))) (total ps)) as [Z|Z]; [|reflexivity].
      exfalso. apply (part_len_over E ps (length (b_bytes b))); [lia|rewrite Ht; exact G|exact Z].
Qed.
Print Assumptions w_str_pieces.

(** Ten bytes handed over as 1, 0, 2 and the remaining 7, under a limit of 8: the first three
    arrive and the capacity has grown for them before the last piece fails. *)
Example in_pieces : forall E, e_grow E = {| p_cut := fun _ _ => [1; 0; 2]; p_wish := fun _ n => n |} -> e_out E = 8%N ->
  w_str E (L "0123456789") (mkBuf [] 0) = (mkBuf (utf8 (L "012")) 3, Err (Io OutOfMemory)).
Proof. intros [f a g n o] H1 H2. cbn [e_grow e_out] in H1, H2. subst. vm_compute. reflexivity. Qed.
