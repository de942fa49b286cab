(** C47: a large enough buffer is not reallocated. *)
From Verif Require Import Parser Api Output Utf8 Wf ParseOk Safety Show Emit Less LessOut OutErr Pieces.

(** ** Printing only appends, reallocates only when the text does not fit, and ignores the capacity *)
Definition fits (lim : N) (b b' : buf) : Prop :=
  length (b_bytes b) <= length (b_bytes b') /\
  ((N.of_nat (length (b_bytes b')) <= b_cap b)%N -> b_cap b' = b_cap b) /\
  ((N.of_nat (length (b_bytes b)) <= b_cap b)%N -> (N.of_nat (length (b_bytes b')) <= b_cap b')%N) /\
  (b_cap b <= b_cap b')%N /\
  ((N.of_nat (length (b_bytes b)) < lim)%N -> (N.of_nat (length (b_bytes b')) < lim)%N).
Lemma fits_refl l b : fits l b b. Proof. repeat split; auto. apply N.le_refl. Qed.
Lemma fits_trans l a b c : fits l a b -> fits l b c -> fits l a c.
Proof.
  intros (H1 & H2 & H3 & H4 & H5) (G1 & G2 & G3 & G4 & G5). split; [lia|]. split; [|split; [auto|split; [lia|auto]]].
  intros H. rewrite <- H2 by lia. apply G2. rewrite H2 by lia. exact H.
Qed.
Definition blind (x y : buf * res unit) : Prop := b_bytes (fst x) = b_bytes (fst y) /\ snd x = snd y.

Section Gw.
  Variable E : env.
  Definition gw (w : W) : Prop :=
    (forall b, fits (e_out E) b (fst (w b))) /\ forall b b', b_bytes b = b_bytes b' -> blind (w b) (w b').
  Lemma gw_ret : gw w_ret. Proof. split; [intros b; apply fits_refl|]. intros b b' H. split; [exact H|reflexivity]. Qed.
  Lemma gw_panic : gw w_panic. Proof. split; [intros b; apply fits_refl|]. intros b b' H. split; [exact H|reflexivity]. Qed.
  Lemma gw_fuel : gw w_fuel. Proof. split; [intros b; apply fits_refl|]. intros b b' H. split; [exact H|reflexivity]. Qed.
  Lemma gw_seq m k : gw m -> gw k -> gw (m >> k).
  Proof.
    intros [Hm Bm] [Hk Bk]. split.
    - intros b. unfold w_seq. specialize (Hm b). destruct (m b) as [b' [[]|e| |]]; cbn [fst] in *; try exact Hm.
      eapply fits_trans; [exact Hm|apply Hk].
    - intros b b' H. unfold w_seq. specialize (Bm b b' H). destruct (m b) as [c r], (m b') as [c' r'], Bm as [B1 B2]. cbn [fst snd] in *. subst r'.
      destruct r as [[]|e| |]; try (split; [exact B1|reflexivity]). apply Bk. exact B1.
  Qed.
  Lemma gw_if c m : gw m -> gw (w_if c m).
  Proof. destruct c; intros H; [exact H|exact gw_ret]. Qed.
  Lemma gw_opt {A} (o : option A) f : (forall a, gw (f a)) -> gw (w_opt o f).
  Proof. destruct o; intros H; [apply H|exact gw_ret]. Qed.
  Lemma gw_str x : gw (w_str E x).
  Proof.
    split.
    - intros b. unfold w_str. destruct x as [|z x]; [apply fits_refl|]. remember (z :: x) as zx. cbv zeta.
      set (ps := clip (p_cut (e_grow E) (b_bytes b) zx) (length (utf8 zx))).
      assert (Ht : total ps = length (utf8 zx)) by apply clip_total.
      assert (Hf : forall y, length y = part_len E ps (length (b_bytes b)) ->
        fits (e_out E) b (mkBuf (b_bytes b ++ y) (part_cap E ps (length (b_bytes b)) (b_cap b)))).
      { intros y Hy. unfold fits. cbn [b_bytes b_cap]. rewrite app_length, Hy. split; [lia|]. apply (part_facts E ps). }
      destruct (N.ltb_spec (N.of_nat (length (b_bytes b) + length (utf8 zx))) (e_out E)) as [Ho|Ho]; cbn [fst]; apply Hf.
      + rewrite part_len_fits by (rewrite Ht; exact Ho). symmetry. exact Ht.
      + rewrite firstn_length. pose proof (part_len_le E ps (length (b_bytes b))). lia.
    - intros b b' H. unfold w_str. destruct x as [|z x]; [split; [exact H|reflexivity]|]. remember (z :: x) as zx. cbv zeta. rewrite H.
      destruct (_ <? _)%N; (split; [|reflexivity]); cbn [fst b_bytes]; congruence.
  Qed.
  Lemma gw_last (f : option N -> W) : (forall o, gw (f o)) -> gw (fun b => f (last_char b) b).
  Proof.
    intros Hf. split; [intros b; apply Hf|]. intros b b' H. replace (last_char b') with (last_char b) by (unfold last_char; rewrite H; reflexivity).
    apply Hf. exact H.
  Qed.
  Lemma gw_len (f : nat -> W) : (forall n, gw (f n)) -> gw (fun b => f (length (b_bytes b)) b).
  Proof. intros Hf. split; [intros b; apply Hf|]. intros b b' H. rewrite H. apply Hf. exact H. Qed.
  Lemma gw_space : gw (space_if_necessary E).
  Proof.
    apply (gw_last (fun o b => match o with Some c => if is_alphanumeric E c || (c =? ch ">")%N then w_str E (L " ") b else w_ret b | None => w_ret b end)).
    intros [c|]; [|exact gw_ret]. destruct (is_alphanumeric E c || (c =? ch ">")%N); [apply gw_str|exact gw_ret].
  Qed.
  Lemma gw_variadic : gw (fun b => match last_char b with Some c => w_if (negb (c =? ch "(")%N) (put E (L ", ")) b | None => w_ret b end).
  Proof.
    apply (gw_last (fun o b => match o with Some c => w_if (negb (c =? ch "(")%N) (put E (L ", ")) b | None => w_ret b end)).
    intros [c|]; [apply gw_if, gw_str|exact gw_ret].
  Qed.
  Ltac g1 := match goal with
    | |- gw (_ >> _) => apply gw_seq
    | |- gw w_ret => apply gw_ret
    | |- gw w_panic => apply gw_panic
    | |- gw w_fuel => apply gw_fuel
    | |- gw (w_if _ _) => apply gw_if
    | |- gw (w_opt _ _) => apply gw_opt; intros ?
    | |- gw (put _ _) => apply gw_str
    | |- gw (w_str _ _) => apply gw_str
    | |- gw (space_if_necessary _) => apply gw_space
    | |- gw (fun b => match last_char b with _ => _ end) => apply gw_variadic
    | |- gw (if ?c then _ else _) => destruct c
    end.
  Ltac gs := repeat g1.
  Lemma gw_restrict : gw (single_restrict E). Proof. unfold single_restrict. gs. Qed.
  Lemma gw_present p m sb k : gw m -> (forall b, gw (k b)) -> gw (if_present E p m sb k).
  Proof. intros Hm Hk. unfold if_present. gs; auto. Qed.
  Lemma gw_quals q sb sa : gw (out_quals E q sb sa).
  Proof.
    unfold out_quals. gs. match goal with |- gw (fun b0 => (?m >> _) b0) =>
      apply (gw_len (fun n0 => m >> (fun b1 => w_if (sa && (n0 <? length (b_bytes b1))) (w_str E (L " ")) b1))) end.
    intros n0. apply gw_seq.
    - repeat (apply gw_present; [first [apply gw_restrict|unfold single_const, single_volatile; gs]|intros ?]). gs.
    - apply (gw_len (fun n1 => w_if (sa && (n0 <? n1)) (w_str E (L " ")))). intros n1. gs.
  Qed.
  Lemma gw_cc c : gw (out_cc E c).
  Proof. unfold out_cc. gs.  Qed.

  Variable sg : store.
  Section Rec.
    Variable rec : omode -> kind -> handle -> W.
    Hypothesis Hrec : forall m k h, gw (rec m k h).
    Ltac g2 := first [g1|apply gw_cc|apply gw_quals|apply Hrec].
    Ltac gt := repeat g2.
    Lemma gw_fsig_pre f p : gw (fsig_pre E rec f p). Proof. unfold fsig_pre. gt. Qed.
    Lemma gw_fsig_post f p : gw (fsig_post E rec f p).
    Proof. unfold fsig_post. gt; try (destruct (fs_params f); gt); match goal with a : ref_qual |- _ => destruct a end; gt. Qed.
    Lemma gw_sig_pre n p : gw (sig_pre E rec n p).
    Proof. destruct n; cbn [sig_pre]; gt; [apply gw_fsig_pre|unfold thunk_pre; gt; apply gw_fsig_pre]. Qed.
    Lemma gw_sig_post n p : gw (sig_post E rec n p).
    Proof. destruct n; cbn [sig_post]; gt; [apply gw_fsig_post|unfold thunk_post; gt; apply gw_fsig_post]. Qed.
    Lemma gw_ptr_pre q a cls p : gw (ptr_pre E sg rec q a cls p).
    Proof. unfold ptr_pre. destruct (resolve sg KType p) as [n|]; gt; [apply gw_sig_pre|]. destruct a as [[]|]; gt. Qed.
    Lemma gw_ptr_post p : gw (ptr_post E sg rec p).
    Proof. unfold ptr_post. destruct (resolve sg KType p) as [n|]; gt. apply gw_sig_post. Qed.
    Lemma gw_int v neg : gw (int_out E v neg). Proof. unfold int_out. gt. Qed.
    Lemma gw_dim h : gw (one_dim E sg h).
    Proof. unfold one_dim. destruct (resolve sg KAny h) as [[]|]; gt. apply gw_int. Qed.
    Lemma gw_rest_dims l : gw (rest_dims E sg l).
    Proof. induction l; cbn [rest_dims]; gt; [apply gw_dim|assumption]. Qed.
    Lemma gw_dims h : gw (out_dims E sg h).
    Proof. unfold out_dims. destruct (resolve sg KNodes h) as [[]|]; gt. destruct l; gt; [apply gw_dim|apply gw_rest_dims]. Qed.
    Lemma gw_tp tp : gw (out_tp E rec tp). Proof. unfold out_tp. gt. Qed.
    Lemma gw_rest sep l : gw (rest_nodes E rec sep l).
    Proof. induction l; cbn [rest_nodes]; gt. assumption. Qed.
    Lemma gw_nodes sep l : gw (out_nodes E rec sep l).
    Proof. destruct l; cbn [out_nodes]; gt. apply gw_rest. Qed.
    Lemma gw_pre n : gw (out_pre E sg rec n).
    Proof.
      destruct n; cbn [out_pre]; gt; first [apply gw_fsig_pre|apply gw_ptr_pre|idtac].
      unfold thunk_pre. gt. apply gw_fsig_pre.
    Qed.
    Lemma gw_post n : gw (out_post E sg rec n).
    Proof.
      destruct n; cbn [out_post]; gt; first [apply gw_fsig_post|apply gw_ptr_post|apply gw_dims|idtac].
      unfold thunk_post. gt. apply gw_fsig_post.
    Qed.
    Lemma gw_var nm sc ty : gw (var_out E rec nm sc ty).
    Proof.
      unfold var_out. destruct sc as [[]|]; cbv beta iota zeta; repeat apply gw_seq; cbn [w_opt]; gt;
        destruct nm as [[]|]; gt; cbv zeta; gt.
    Qed.
    Lemma gw_offs zs : gw (fold_right (fun z k => put E (L ", " ++ dec_Z z) >> k) (put E (L "}")) zs).
    Proof. induction zs; cbn [fold_right]; gt. assumption. Qed.
    Lemma gw_tpr sym offs a : gw (tpr_out E rec sym offs a).
    Proof. unfold tpr_out. destruct offs; gt. apply gw_offs. Qed.
    Lemma gw_full n : gw (out_full E sg rec n).
    Proof.
      destruct n; cbn [out_full];
        try (apply gw_seq; [apply gw_pre|apply gw_post]); gt;
        first [apply gw_tp|apply gw_int|apply gw_var|apply gw_tpr|idtac].
      - destruct id; gt.
      - apply gw_nodes.
      - destruct (resolve sg KNodes components) as [[]|]; gt. apply gw_nodes.
      - unfold strlit_out. gt.
    Qed.
    Lemma gw_node m n : gw (out_node E sg rec m n).
    Proof. destruct m; cbn [out_node]; [apply gw_full|apply gw_pre|apply gw_post]. Qed.
  End Rec.
  Lemma gw_out fuel : forall m k h, gw (out fuel E sg m k h).
  Proof.
    induction fuel as [|fuel IH]; intros m k h; cbn [out]; [gs|]. destruct (resolve sg k h) as [n|] eqn:Hn; [|gs].
    apply gw_node. exact IH.
  Qed.
  Lemma gw_output k h : gw (output E sg k h). Proof. apply gw_out. Qed.
End Gw.

(** Either the call never writes, or its buffer is what one writer makes of the cleared buffer. *)
Lemma into_writes E s :
  (forall b, b_cap (snd (demangle_into_with E s b)) = b_cap b /\ fst (demangle_into_with E s b) <> Ok tt) \/
  (exists w, gw E w /\ forall b, b_cap (snd (demangle_into_with E s b)) = b_cap (fst (w (clear b))) /\
     (fst (demangle_into_with E s b) = Ok tt -> snd (demangle_into_with E s b) = fst (w (clear b)))).
Proof.
  unfold demangle_into_with. destruct (parse E s) as [[h t]|e| |]; try (left; intros b; split; [reflexivity|discriminate]).
  right. exists (output E (s_store t) KSym h). split; [apply gw_output|]. intros b.
  destruct (output E (s_store t) KSym h (clear b)) as [ob [[]|e| |]]; cbn [fst snd]; try (split; [reflexivity|discriminate]).
  destruct (from_utf8 (b_bytes ob)); cbn [fst snd]; split; try reflexivity; discriminate.
Qed.

(** ** C47 *)

(** A successful call whose text fits the buffer's capacity leaves the capacity as it is: the
    text is written in place.  Otherwise the capacity afterwards holds the text. *)
Theorem text_that_fits_is_written_in_place : forall (E : env) (s : str) (buf : string_buf),
  fst (demangle_into E s buf) = Ok tt ->
  (N.of_nat (length (b_bytes (snd (demangle_into E s buf)))) <= b_cap (snd (demangle_into E s buf)))%N /\
  ((N.of_nat (length (b_bytes (snd (demangle_into E s buf)))) <= b_cap buf)%N ->
   b_cap (snd (demangle_into E s buf)) = b_cap buf).
Proof.
  intros E s b Hok. unfold demangle_into in *. destruct (into_writes (code_limits E) s) as [H|(w & [Hw _] & H)]; [destruct (H b); contradiction|].
  destruct (H b) as [_ H2]. rewrite (H2 Hok). destruct (Hw (clear b)) as (_ & F2 & F3 & _). split; [apply F3; cbn; lia|exact F2].
Qed.
Print Assumptions text_that_fits_is_written_in_place.

(** A buffer of 2^20 bytes is never reallocated, whatever the input and the outcome. *)
Theorem full_size_buffer_is_never_reallocated : forall (E : env) (s : str) (buf : string_buf),
  (2 ^ 20 <= b_cap buf)%N -> b_cap (snd (demangle_into E s buf)) = b_cap buf.
Proof.
  intros E s b Hb. unfold demangle_into. destruct (into_writes (code_limits E) s) as [H|(w & [Hw _] & H)]; [apply H|].
  destruct (H b) as [-> _]. destruct (Hw (clear b)) as (_ & F2 & _ & _ & F5). apply F2. change (b_cap (clear b)) with (b_cap b).
  assert (G : (N.of_nat (length (b_bytes (fst (w (clear b))))) < 2 ^ 20)%N) by (apply F5; reflexivity). lia.
Qed.
Print Assumptions full_size_buffer_is_never_reallocated.

(** A buffer at least as large as another one was after a call with the same input is not
    reallocated by that call, successful or not. *)
Theorem same_call_needs_no_more : forall (E : env) (s : str) (buf buf' : string_buf),
  (b_cap (snd (demangle_into E s buf)) <= b_cap buf')%N -> b_cap (snd (demangle_into E s buf')) = b_cap buf'.
Proof.
  intros E s b b' Hb. unfold demangle_into in *. destruct (into_writes (code_limits E) s) as [H|(w & [Hw Bw] & H)]; [apply H|].
  destruct (H b) as [H1 _], (H b') as [-> _]. rewrite H1 in Hb. destruct (Bw (clear b) (clear b') eq_refl) as [Hbytes _].
  destruct (Hw (clear b')) as (_ & F2 & _). apply F2. rewrite <- Hbytes. destruct (Hw (clear b)) as (_ & _ & F3 & _).
  change (b_cap (clear b')) with (b_cap b'). etransitivity; [apply F3; cbn; lia|exact Hb].
Qed.
Print Assumptions same_call_needs_no_more.

(** A history of calls, with their flags and inputs, on one buffer. *)
Fixpoint calls (l : list (env * str)) (buf : string_buf) : string_buf :=
  match l with
  | [] => buf
  | (E, s) :: l => calls l (snd (demangle_into E s buf))
  end.
Lemma into_grows E s b : (b_cap b <= b_cap (snd (demangle_into E s b)))%N.
Proof.
  unfold demangle_into. destruct (into_writes (code_limits E) s) as [H|(w & [Hw _] & H)]; destruct (H b) as [H1 _]; rewrite H1; [apply N.le_refl|].
  destruct (Hw (clear b)) as (_ & _ & _ & F4 & _). exact F4.
Qed.
Lemma calls_grow l : forall b, (b_cap b <= b_cap (calls l b))%N.
Proof. induction l as [|[E s] l IH]; intros b; cbn [calls]; [apply N.le_refl|]. etransitivity; [apply into_grows|apply IH]. Qed.
Lemma calls_enough l E s : In (E, s) l -> forall b, exists b0, (b_cap (snd (demangle_into E s b0)) <= b_cap (calls l b))%N.
Proof.
  induction l as [|[F u] l IH]; intros Hin b; [destruct Hin|]. cbn [calls]. destruct Hin as [Heq|Hin].
  - injection Heq as <- <-. exists b. apply calls_grow.
  - apply IH. exact Hin.
Qed.
(** After any history, calls that occurred in it never reallocate the buffer again, in whatever
    order and however often they come. *)
Theorem warm_buffer_is_never_reallocated : forall (l l' : list (env * str)) (buf : string_buf),
  incl l' l -> b_cap (calls l' (calls l buf)) = b_cap (calls l buf).
Proof.
  intros l l' b. assert (G : forall b', (b_cap (calls l b) <= b_cap b')%N -> incl l' l -> b_cap (calls l' b') = b_cap b').
  { induction l' as [|[E s] l' IH]; intros b' Hb Hi; cbn [calls]; [reflexivity|].
    assert (Hc : b_cap (snd (demangle_into E s b')) = b_cap b').
    { destruct (calls_enough l E s (Hi _ (or_introl eq_refl)) b) as [b0 H0]. apply (same_call_needs_no_more E s b0 b'). lia. }
    rewrite IH; [exact Hc|rewrite Hc; exact Hb|]. intros x Hx. apply Hi. right. exact Hx. }
  intros Hi. apply G; [apply N.le_refl|exact Hi].
Qed.
Print Assumptions warm_buffer_is_never_reallocated.

(** ** The hypotheses are met *)
Example in_place_example :
  demangle_into (env_of 0) (L "?x@@3HA") (mkBuf (utf8 (L "left over")) 9) = (Ok tt, mkBuf (utf8 (L "int x")) 9) /\
  demangle_into (env_of 0) (L "?f@@YAXXZ") (mkBuf (utf8 (L "left over")) 9) = (Ok tt, mkBuf (utf8 (L "void __cdecl f(void)")) 36).
Proof. split; vm_compute; reflexivity. Qed.
Example warm_example :
  let l := [(env_of 0, L "?f@@YAXXZ"); (env_of 0, L "?x@@3HA"); (env_of 0, L "junk")] in
  calls l (mkBuf [] 0) = mkBuf [] 32 /\ calls (rev l) (calls l (mkBuf [] 0)) = mkBuf (utf8 (L "void __cdecl f(void)")) 32.
Proof. split; vm_compute; reflexivity. Qed.
