(** C14, C15: string literals. *)
From Verif Require Import Api Utf8 Lex Number Step Format Show Literal.

(** ** Reading bytes *)
Lemma lor_nibbles hi lo : (hi < 16)%N -> (lo < 16)%N -> N.lor (N.shiftl hi 4) lo = (16 * hi + lo)%N.
Proof.
  intros H1 H2.
  assert (I1 : In hi (map N.of_nat (seq 0 16))) by (apply in_map_iff; exists (N.to_nat hi); split; [apply N2Nat.id|apply in_seq; lia]).
  assert (I2 : In lo (map N.of_nat (seq 0 16))) by (apply in_map_iff; exists (N.to_nat lo); split; [apply N2Nat.id|apply in_seq; lia]).
  cbn in I1, I2.
  repeat (destruct I1 as [<-|I1]; [repeat (destruct I2 as [<-|I2]; [reflexivity|]); contradiction|]). contradiction.
Qed.
Lemma rebased_nibble x : (x < 16)%N -> rebased_to_number (ch "A" + x) = Some x.
Proof.
  intros H. assert (I1 : In x (map N.of_nat (seq 0 16))) by (apply in_map_iff; exists (N.to_nat x); split; [apply N2Nat.id|apply in_seq; lia]).
  cbn in I1. repeat (destruct I1 as [<-|I1]; [reflexivity|]). contradiction.
Qed.

Lemma byte_at t b r sg f n : byte_text t b -> demangle_char_literal (at_ (t ++ r) sg f n) = Ok (b, at_ r sg f n).
Proof.
  intros H. unfold demangle_char_literal. destruct H.
  - cbn [app]. erewrite bind_eq by apply next_at. apply N.eqb_neq in H0. rewrite H0. apply N.ltb_lt in H. rewrite H. reflexivity.
  - change ((L "?$" ++ [ch "A" + hi; ch "A" + lo]%N) ++ r) with (ch "?" :: ch "$" :: (ch "A" + hi) :: (ch "A" + lo) :: r)%N.
    erewrite bind_eq by apply next_at. rewrite N.eqb_refl. erewrite bind_eq by apply next_at. rewrite N.eqb_refl.
    erewrite bind_eq by (rewrite consume_2_eq by reflexivity; reflexivity). erewrite bind_eq by reflexivity. cbv beta iota.
    rewrite !rebased_nibble by assumption. erewrite bind_eq by reflexivity. erewrite bind_eq by reflexivity.
    rewrite lor_nibbles by assumption. reflexivity.
  - cbn [app]. erewrite bind_eq by apply next_at. rewrite N.eqb_refl. erewrite bind_eq by apply next_at.
    do 10 (destruct i as [|i]; [injection H0 as <-; reflexivity|]). lia.
  - cbn [app]. erewrite bind_eq by apply next_at. rewrite N.eqb_refl. erewrite bind_eq by apply next_at.
    change (ch "$") with 36%N. change (ch "a") with 97%N. unfold is_digit, is_lower, in_range.
    change (ch "0") with 48%N. change (ch "9") with 57%N. change (ch "a") with 97%N. change (ch "z") with 122%N.
    replace (97 + i =? 36)%N with false by (symmetry; apply N.eqb_neq; lia).
    replace (97 + i <=? 57)%N with false by (symmetry; apply N.leb_gt; lia). rewrite andb_false_r.
    replace (97 <=? 97 + i)%N with true by (symmetry; apply N.leb_le; lia).
    replace (97 + i <=? 122)%N with true by (symmetry; apply N.leb_le; lia). cbn [andb].
    replace (97 + i - 97)%N with i by lia. reflexivity.
  - cbn [app]. erewrite bind_eq by apply next_at. rewrite N.eqb_refl. erewrite bind_eq by apply next_at.
    change (ch "$") with 36%N. unfold is_digit, is_lower, is_upper, in_range.
    change (ch "0") with 48%N. change (ch "9") with 57%N. change (ch "a") with 97%N. change (ch "A") with 65%N. change (ch "Z") with 90%N.
    replace (65 + i =? 36)%N with false by (symmetry; apply N.eqb_neq; lia).
    replace (65 + i <=? 57)%N with false by (symmetry; apply N.leb_gt; lia). rewrite andb_false_r.
    replace (97 <=? 65 + i)%N with false by (symmetry; apply N.leb_gt; lia). cbn [andb].
    replace (65 <=? 65 + i)%N with true by (symmetry; apply N.leb_le; lia).
    replace (65 + i <=? 90)%N with true by (symmetry; apply N.leb_le; lia). cbn [andb].
    replace (65 + i - 65)%N with i by lia. reflexivity.
Qed.
Lemma byte_head t b r : byte_text t b -> starts (ch "@") (t ++ r) = false /\ is_empty (t ++ r) = false /\ 1 <= length t.
Proof.
  intros H. destruct H; repeat split; try (cbn; lia). cbn. apply N.eqb_neq. assumption.
Qed.
Lemma byte_small t b : byte_text t b -> (b < 256)%N.
Proof.
  destruct 1; try lia. do 10 (destruct i as [|i]; [injection H0 as <-; reflexivity|]). lia.
Qed.
Lemma bytes_small t l : bytes_text t l -> Forall (fun b => (b < 256)%N) l.
Proof. induction 1; constructor; eauto using byte_small. Qed.
Lemma bytes_length t l : bytes_text t l -> length l <= length t.
Proof. induction 1 as [|t b ts bs Hb _ IH]; cbn; [lia|]. rewrite app_length. destruct (byte_head t b [] Hb) as (_ & _ & ?). lia. Qed.

Lemma narrow_loop_at ts l rest sg f n : bytes_text ts l -> forall fuel acc,
  length l < fuel -> length acc + length l <= 128 ->
  narrow_loop fuel acc (at_ (ts ++ L "@" ++ rest) sg f n) = Ok (rev acc ++ l, at_ rest sg f n).
Proof.
  induction 1 as [|t b ts bs Hb _ IH]; intros fuel acc Hf Hl; (destruct fuel as [|fuel]; [cbn in Hf; lia|]); cbn [narrow_loop].
  - erewrite bind_eq by apply eat_yes. rewrite app_nil_r. reflexivity.
  - rewrite <- app_assoc. destruct (byte_head t b (ts ++ L "@" ++ rest) Hb) as (H1 & H2 & _).
    erewrite bind_eq by (apply eat_no; exact H1). cbv iota. erewrite bind_eq by apply text_at. rewrite H2.
    erewrite bind_eq by (apply byte_at; exact Hb). cbn in Hl.
    replace (128 <=? length acc) with false by (symmetry; apply Nat.leb_gt; lia).
    rewrite IH by (cbn in *; lia). cbn [rev]. rewrite <- app_assoc. reflexivity.
Qed.

(** ** Escapes *)
Lemma escape_eq c : escaped_char c = c_escape c.
Proof.
  destruct (N.lt_ge_cases c 128) as [Hc|Hc].
  - assert (Hin : In c (map N.of_nat (seq 0 128))) by (apply in_map_iff; exists (N.to_nat c); split; [apply N2Nat.id|apply in_seq; lia]).
    cbn in Hin. repeat (destruct Hin as [<-|Hin]; [reflexivity|]). contradiction.
  - unfold escaped_char, escape_table. cbn [lookup].
    repeat match goal with |- context [(c =? ?k)%N] => replace (c =? k)%N with false by (symmetry; apply N.eqb_neq; lia) end.
    unfold c_escape. destruct c as [|p]; [lia|].
    do 7 (destruct p as [p|p|]; try reflexivity; try lia).
Qed.
Lemma hex2_nonempty c : exists x r, hex2_N c = x :: r.
Proof. destruct (hex2_N_correct c) as (_ & _ & H & _). destruct (hex2_N c) as [|x r]; [cbn in H; lia|eauto]. Qed.

Definition printable (c : N) : Prop := (32 <= c <= 126)%N.
Lemma printable_escape c : Forall printable (c_escape c).
Proof.
  assert (Hh : Forall printable (hex2_N c)).
  { eapply Forall_impl; [|apply hex2_N_correct]. intros x Hx. cbv beta in Hx. unfold printable, is_digit, in_range in *.
    apply orb_prop in Hx. destruct Hx as [Hx|Hx]; apply andb_prop in Hx; destruct Hx as [H1 H2]; apply N.leb_le in H1, H2.
    - change (ch "0") with 48%N in *. change (ch "9") with 57%N in *. lia.
    - change (ch "A") with 65%N in *. change (ch "F") with 70%N in *. lia. }
  rewrite <- escape_eq. unfold escaped_char. destruct (lookup c escape_table) as [s|] eqn:Hl.
  - unfold escape_table in Hl. cbn [lookup] in Hl.
    repeat (destruct (_ =? _)%N; [injection Hl as <-; repeat constructor; discriminate|]). discriminate.
  - destruct (in_range 32 126 c) eqn:Hr.
    + apply andb_prop in Hr. destruct Hr as [H1 H2]. apply N.leb_le in H1, H2. repeat constructor; assumption.
    + apply Forall_app. split; [repeat constructor; discriminate|exact Hh].
Qed.
Lemma printable_ascii x : Forall printable x -> Forall (fun c => (c < 128)%N) x.
Proof. apply Forall_impl. unfold printable. intros. lia. Qed.
Lemma utf8_ascii x : Forall (fun c => (c < 128)%N) x -> utf8 x = x.
Proof.
  induction 1 as [|c x Hc _ IH]; [reflexivity|]. change (utf8 (c :: x)) with (utf8_char c ++ utf8 x). rewrite IH.
  unfold utf8_char. apply N.ltb_lt in Hc. rewrite Hc. reflexivity.
Qed.
Lemma ascii_ustr x : Forall (fun c => (c < 128)%N) x -> ustr x.
Proof. apply Forall_impl. intros c Hc. unfold scalar. replace (c <? 0xD800)%N with true by (symmetry; apply N.ltb_lt; lia). reflexivity. Qed.
Lemma from_utf8_ascii x : Forall (fun c => (c < 128)%N) x -> from_utf8 x = Some x.
Proof. intros H. rewrite <- (utf8_ascii x H) at 1. apply from_utf8_utf8. apply ascii_ustr, H. Qed.
Lemma printable_text l : Forall printable (c_text l).
Proof. unfold c_text. induction l; cbn; [constructor|]. apply Forall_app. split; [apply printable_escape|assumption]. Qed.

(** ** C15 *)
(** Partial correctness. *)
Definition post {A} (m : M A) (Q : A -> st -> Prop) (s : st) : Prop := forall a s', m s = Ok (a, s') -> Q a s'.
Lemma post_bind {A B} (m : M A) (f : A -> M B) (Q : B -> st -> Prop) s :
  post m (fun a s' => post (f a) Q s') s -> post (bind m f) Q s.
Proof.
  unfold post, bind. intros H b s''. destruct (m s) as [[a s']| | |]; try discriminate. intros Hb. apply (H a s' eq_refl b s'' Hb).
Qed.
Lemma post_mono {A} (m : M A) (Q R : A -> st -> Prop) s : post m Q s -> (forall a s', Q a s' -> R a s') -> post m R s.
Proof. unfold post. intros H HQ a s' Ha. auto. Qed.
Lemma post_any {A} (m : M A) s : post m (fun _ _ => True) s.
Proof. intros a s' _. exact I. Qed.
Lemma post_ret {A} (a : A) (Q : A -> st -> Prop) s : Q a s -> post (ret a) Q s.
Proof. intros H b s' Hb. injection Hb as <- <-. exact H. Qed.
Lemma post_fail {A} e (Q : A -> st -> Prop) s : post (fail e) Q s.
Proof. discriminate. Qed.
Lemma post_ok_or {A} (o : option A) e (Q : A -> st -> Prop) s : (forall a, o = Some a -> Q a s) -> post (ok_or o e) Q s.
Proof. destruct o; intros H; [apply post_ret; auto|apply post_fail]. Qed.

Definition pbuf (b : buf) : Prop := Forall printable (b_bytes b).
Lemma run_str_printable E x b s : Forall printable x -> pbuf b -> post (run_w (w_str E x) b) (fun b _ => pbuf b) s.
Proof.
  intros Hx Hb c s'. unfold run_w, w_str. destruct x as [|y x]; [intros H; injection H as <- _; exact Hb|].
  destruct (_ <? _)%N; [|discriminate]. intros H; injection H as <- _. unfold pbuf. cbn [b_bytes].
  apply Forall_app. split; [exact Hb|]. change (Forall printable (utf8 (y :: x))). rewrite (utf8_ascii (y :: x)) by (apply printable_ascii; exact Hx). exact Hx.
Qed.
Lemma run_if_printable E c w b s : pbuf b -> post (run_w (w_if c (w_str E (escaped_char w))) b) (fun b _ => pbuf b) s.
Proof.
  intros Hb. destruct c; cbn [w_if]; [apply run_str_printable; [rewrite escape_eq; apply printable_escape|exact Hb]|].
  intros a s' H. injection H as <- _. exact Hb.
Qed.
Lemma wide_loop_printable E fuel : forall len trunc ob s, pbuf ob -> post (wide_loop E fuel len trunc ob) (fun b _ => pbuf b) s.
Proof.
  induction fuel as [|fuel IH]; intros len trunc ob s Hb; [discriminate|]. cbn [wide_loop].
  apply post_bind. eapply post_mono; [apply post_any|]. intros [|] s1 _; [apply post_ret; exact Hb|].
  apply post_bind. eapply post_mono; [apply post_any|]. intros t s2 _. destruct (_ <? _); [apply post_fail|].
  apply post_bind. eapply post_mono; [apply post_any|]. intros w s3 _.
  apply post_bind. eapply post_mono; [apply run_if_printable; exact Hb|]. intros b s4 H4. apply IH. exact H4.
Qed.
Lemma narrow_out_printable E bytes sz num : forall count i trunc ob s, pbuf ob ->
  post (narrow_out E bytes sz num i count trunc ob) (fun b _ => pbuf b) s.
Proof.
  induction count as [|count IH]; intros i trunc ob s Hb; cbn [narrow_out]; [apply post_ret; exact Hb|].
  apply post_bind. eapply post_mono; [apply post_any|]. intros c s1 _.
  apply post_bind. eapply post_mono; [apply run_if_printable; exact Hb|]. intros b s4 H4. apply IH. exact H4.
Qed.

Lemma string_literal_printable E s : post (demangle_string_literal E)
  (fun h s' => exists x trunc k, nth_error (s_store s') h = Some (NStrLit None x trunc k) /\ Forall printable x) s.
Proof.
  unfold demangle_string_literal.
  do 3 (apply post_bind; eapply post_mono; [apply post_any|]; intros ? ? _).
  apply post_bind; eapply post_mono; [apply post_any|]; intros [len neg] ? _.
  destruct (_ || _); [apply post_fail|].
  do 5 (apply post_bind; eapply post_mono; [apply post_any|]; intros ? ? _).
  destruct (is_empty _); [apply post_fail|].
  apply post_bind. apply post_mono with (Q := fun r _ => pbuf (fst (fst r))).
  - destruct a1.
    + cbv zeta. apply post_bind. eapply post_mono; [apply wide_loop_printable; constructor|]. intros b s1 Hb. apply post_ret. exact Hb.
    + apply post_bind; eapply post_mono; [apply post_any|]; intros bytes ? _. cbv zeta.
      do 2 (apply post_bind; eapply post_mono; [apply post_any|]; intros ? ? _).
      apply post_bind. eapply post_mono; [apply narrow_out_printable; constructor|]. intros b s1 Hb. apply post_ret. exact Hb.
  - intros [[ob k] trunc] s1 Hob. cbn [fst] in Hob. apply post_bind. unfold take_text. apply post_ok_or. intros x Hx.
    rewrite from_utf8_ascii in Hx by (apply printable_ascii; exact Hob). injection Hx as <-.
    intros h s2 H. unfold intern in H. destruct (_ <? _)%N; [discriminate|]. injection H as <- <-.
    exists (b_bytes ob), trunc, k. split; [|exact Hob]. cbn [s_store set_store]. rewrite nth_error_app2 by lia. rewrite Nat.sub_diag. reflexivity.
Qed.

Lemma do_parse_string E K t : do_parse E K (init_st (L "??_C" ++ t)) =
  (h <- demangle_string_literal E ;; ret h) (at_ t [] [] []).
Proof.
  unfold do_parse. change (init_st ?x) with (at_ x [] [] []). erewrite bind_eq by apply text_at.
  change (starts_with (L ".") (L "??_C" ++ t)) with false. cbv iota.
  change (starts_with (L "??@") (L "??_C" ++ t)) with false. cbv iota.
  erewrite bind_eq by apply (expect_yes (ch "?") _ (L "?_C" ++ t)).
  unfold demangle_special_intrinsic.
  assert (Hc : consume_special special_table (at_ (L "?_C" ++ t) [] [] []) = Ok (Some SStringLiteralSymbol, at_ t [] [] [])).
  { unfold special_table. cbn [consume_special]. do 5 (erewrite bind_eq by (apply eats_no; reflexivity); cbv iota).
    erewrite bind_eq by apply eats_yes. reflexivity. }
  unfold bind. rewrite Hc. destruct (demangle_string_literal E (at_ t [] [] [])) as [[h s]| | |]; reflexivity.
Qed.
Lemma strlit_output E sg h name x trunc k : nth_error sg h = Some (NStrLit name x trunc k) ->
  output E sg KSym h = put E (str_prefix k ++ x ++ L """" ++ (if trunc then L "..." else [])).
Proof. intros H. unfold output. cbn [out]. unfold resolve. rewrite H. reflexivity. Qed.

(** Whatever a string-literal symbol encodes, a successful result is printable ASCII. *)
Theorem string_literal_output_printable : forall E s x, demangle E (L "??_C" ++ s) = Ok x ->
  Forall (fun c => (32 <= c <= 126)%N) x.
Proof.
  intros E s x. unfold demangle, demangle_with, demangle_into_with, parse, parse_with. cbn [knot_of k_parse].
  rewrite do_parse_string. unfold bind.
  pose proof (string_literal_printable (code_limits E) (at_ s [] [] [])) as Hp. unfold post in Hp.
  destruct (demangle_string_literal (code_limits E) (at_ s [] [] [])) as [[h s1]| | |]; try discriminate.
  destruct (Hp h s1 eq_refl) as (y & trunc & k & Hn & Hy). cbn [ret].
  rewrite (strlit_output _ _ _ _ _ _ _ Hn). set (z := str_prefix k ++ y ++ L """" ++ _).
  assert (Hz : Forall printable z).
  { unfold z. repeat (apply Forall_app; split); try exact Hy; try (repeat constructor; discriminate).
    - destruct k; repeat constructor; discriminate.
    - destruct trunc; repeat constructor; discriminate. }
  unfold put. change (clear (mkBuf [] 0)) with (mkBuf [] 0). unfold ret. cbv iota beta.
  destruct z as [|c z]; [intros H; injection H as <-; constructor|].
  unfold w_str. destruct (_ <? _)%N; [|discriminate]. cbn [b_bytes app].
  rewrite utf8_ascii by (apply printable_ascii; exact Hz). rewrite from_utf8_ascii by (apply printable_ascii; exact Hz). cbn [b_bytes].
  rewrite from_utf8_ascii by (apply printable_ascii; exact Hz). intros H; injection H as <-. exact Hz.
Qed.
Print Assumptions string_literal_output_printable.

(** ** C14 *)
Lemma run_str_eq E x b s : x <> [] -> exists cap,
  run_w (w_str E x) b s = if (N.of_nat (length (b_bytes b) + length (utf8 x)) <? e_out E)%N
                          then Ok (mkBuf (b_bytes b ++ utf8 x) cap, s) else Err (Io OutOfMemory).
Proof.
  intros Hx. destruct x as [|c x]; [congruence|]. unfold run_w, w_str.
  eexists. destruct (_ <? _)%N; reflexivity.
Qed.
Lemma escape_nonempty c : c_escape c <> [].
Proof.
  rewrite <- escape_eq. unfold escaped_char. destruct (lookup c escape_table) as [s|] eqn:Hl.
  - unfold escape_table in Hl. cbn [lookup] in Hl.
    repeat (destruct (_ =? _)%N; [injection Hl as <-; discriminate|]). discriminate.
  - destruct (in_range 32 126 c); discriminate.
Qed.
Definition written (E : env) (b : buf) (x : str) (s : st) (r : res (buf * st)) : Prop :=
  exists cap, r = if (N.of_nat (length (b_bytes b) + length (utf8 x)) <? e_out E)%N
                  then Ok (mkBuf (b_bytes b ++ utf8 x) cap, s) else Err (Io OutOfMemory).
Lemma written_nil E b s : (N.of_nat (length (b_bytes b)) < e_out E)%N -> written E b [] s (Ok (b, s)).
Proof.
  intros H. exists (b_cap b). cbn [utf8 flat_map length]. rewrite Nat.add_0_r, app_nil_r. apply N.ltb_lt in H. rewrite H. destruct b. reflexivity.
Qed.
Lemma written_cons E b c x (k : buf -> M buf) s : 
  (forall b', (N.of_nat (length (b_bytes b')) < e_out E)%N -> written E b' x s (k b' s)) ->
  written E b (c_escape c ++ x) s ((ob <- run_w (w_str E (escaped_char c)) b ;; k ob) s).
Proof.
  intros Hk. rewrite escape_eq. destruct (run_str_eq E (c_escape c) b s (escape_nonempty c)) as [cap Hr].
  unfold bind. rewrite Hr. unfold written. rewrite utf8_app, app_length.
  destruct (N.ltb_spec (N.of_nat (length (b_bytes b) + length (utf8 (c_escape c)))) (e_out E)) as [Hlt|Hge].
  - destruct (Hk (mkBuf (b_bytes b ++ utf8 (c_escape c)) cap)) as [cap' Hk'].
    { cbn [b_bytes]. rewrite app_length. exact Hlt. }
    exists cap'. cbn [b_bytes] in Hk'. rewrite Hk', app_length, <- app_assoc.
    replace (length (b_bytes b) + length (utf8 (c_escape c)) + length (utf8 x)) with (length (b_bytes b) + (length (utf8 (c_escape c)) + length (utf8 x))) by lia.
    reflexivity.
  - exists 0%N. replace (_ <? _)%N with false; [reflexivity|]. symmetry. apply N.ltb_ge. lia.
Qed.

Lemma narrow_out_at E bytes sz (trunc : bool) s : forall rem i ob,
  (forall j c, nth_error rem j = Some c -> decode_multi_byte_char bytes (i + j) sz = Some c) ->
  (N.of_nat (length (b_bytes ob)) < e_out E)%N ->
  written E ob (c_text (if trunc then rem else removelast rem)) s
    (narrow_out E bytes sz (i + length rem) i (length rem) trunc ob s).
Proof.
  induction rem as [|c rem IH]; intros i ob Hd Hob.
  - destruct trunc; apply written_nil; exact Hob.
  - cbn [length narrow_out]. pose proof (Hd 0 c eq_refl) as H0. rewrite Nat.add_0_r in H0. rewrite H0. erewrite bind_eq by reflexivity.
    replace (i + S (length rem)) with (S i + length rem) by lia.
    assert (Hd' : forall j c0, nth_error rem j = Some c0 -> decode_multi_byte_char bytes (S i + j) sz = Some c0).
    { intros j c0 Hj. replace (S i + j) with (i + S j) by lia. apply Hd. exact Hj. }
    destruct ((i + 1 <? S i + length rem) || trunc) eqn:Hw.
    + replace (c_text (if trunc then c :: rem else removelast (c :: rem))) with
        (c_escape c ++ c_text (if trunc then rem else removelast rem)).
      * cbn [w_if]. apply written_cons. intros b' Hb'. apply IH; assumption.
      * destruct trunc; [reflexivity|]. rewrite orb_false_r in Hw. apply Nat.ltb_lt in Hw. destruct rem; [cbn in Hw; lia|]. reflexivity.
    + apply orb_false_iff in Hw. destruct Hw as [Hw ->]. apply Nat.ltb_ge in Hw.
      assert (rem = []) by (destruct rem; [reflexivity|cbn in Hw; lia]). subst rem. cbn [w_if narrow_out length].
      erewrite bind_eq by reflexivity. apply written_nil. exact Hob.
Qed.

(** Widths. *)
Lemma ends_zeros_spec n l : ends_with_zeros n l = (n <=? leading_zeros (rev l)).
Proof.
  unfold ends_with_zeros. assert (H : skipn (length l - n) l = rev (firstn n (rev l))).
  { rewrite firstn_rev, rev_involutive. reflexivity. }
  rewrite H, <- (rev_length l). clear H. generalize (rev l) as m. intros m.
  assert (Hf : forallb (fun b => (b =? 0)%N) (rev (firstn n m)) = forallb (fun b => (b =? 0)%N) (firstn n m)).
  { generalize (firstn n m) as k. induction k as [|x k IH]; [reflexivity|]. cbn. rewrite forallb_app, IH. cbn. rewrite andb_true_r. apply andb_comm. }
  rewrite Hf. clear Hf. revert n. induction m as [|x m IH]; intros [|n]; try reflexivity.
  cbn [length firstn forallb leading_zeros Nat.leb]. destruct x as [|p]; [|cbn; rewrite andb_false_r; reflexivity].
  cbn [N.eqb andb Nat.leb]. apply IH.
Qed.
Lemma zeros_filter l : length (filter (fun b => (b =? 0)%N) l) = zeros l.
Proof.
  induction l as [|x l IH]; [reflexivity|]. cbn [filter zeros count_occ]. unfold zeros in *. cbn [count_occ].
  destruct (N.eqb_spec x 0), (N.eq_dec x 0); try contradiction; cbn; congruence.
Qed.
Definition width_bytes (w : width) : nat := match w with W1 => 1 | W2 => 2 | W4 => 4 end.
Lemma guess_eq l len : (1 <= len)%N -> guess_char_byte_size l len = Some (width_bytes (guess_width l len)).
Proof.
  intros Hl. unfold guess_char_byte_size, guess_width. replace (len =? 0)%N with false by (symmetry; apply N.eqb_neq; lia).
  assert (Ho : (len mod 2 =? 1)%N = N.odd len).
  { rewrite <- N.bit0_odd, N.testbit_eqb. change (2 ^ 0)%N with 1%N. rewrite N.div_1_r. reflexivity. }
  rewrite Ho. destruct (N.odd len); [reflexivity|]. rewrite !ends_zeros_spec, zeros_filter.
  destruct (_ <? _)%N.
  - destruct (_ && _); [reflexivity|]. destruct (2 <=? _); reflexivity.
  - destruct (_ && _); [reflexivity|]. destruct (_ <=? _); reflexivity.
Qed.
Lemma lor_add a b k : (a < 2 ^ k)%N -> N.lor a (N.shiftl b k) = (a + 2 ^ k * b)%N.
Proof.
  intros Ha. assert (Hl : N.land a (N.shiftl b k) = 0%N).
  { apply N.bits_inj_0. intros m. rewrite N.land_spec. destruct (N.lt_ge_cases m k) as [Hm|Hm].
    - rewrite N.shiftl_spec_low by assumption. apply andb_false_r.
    - assert (Hb : N.testbit a m = false); [|rewrite Hb; reflexivity].
      destruct (N.eq_dec a 0) as [->|Hz]; [apply N.bits_0|]. apply N.bits_above_log2.
      apply N.lt_le_trans with k; [|exact Hm]. apply N.log2_lt_pow2; [lia|exact Ha]. }
  rewrite <- N.lxor_lor by exact Hl. rewrite <- N.add_nocarry_lxor by exact Hl. rewrite N.shiftl_mul_pow2. lia.
Qed.
Lemma units_length w l : length (units w l) = length l / width_bytes w.
Proof.
  destruct w; cbn [units width_bytes].
  - rewrite Nat.div_1_r. reflexivity.
  - assert (H : forall n l, length l <= n -> length (units2 l) = length l / 2).
    { clear. induction n as [|n IH]; intros l Hl; [destruct l; [reflexivity|cbn in Hl; lia]|].
      destruct l as [|a [|b l]]; try reflexivity. cbn [units2 length]. rewrite IH by (cbn in Hl; lia).
      replace (S (S (length l))) with (length l + 1 * 2) by lia. rewrite Nat.div_add by lia. lia. }
    eapply H. reflexivity.
  - assert (H : forall n l, length l <= n -> length (units4 l) = length l / 4).
    { clear. induction n as [|n IH]; intros l Hl; [destruct l; [reflexivity|cbn in Hl; lia]|].
      destruct l as [|a [|b [|c [|d l]]]]; try reflexivity. cbn [units4 length]. rewrite IH by (cbn in Hl; lia).
      replace (S (S (S (S (length l))))) with (length l + 1 * 4) by lia. rewrite Nat.div_add by lia. lia. }
    eapply H. reflexivity.
Qed.
Lemma skipn_add {A} a b (l : list A) : skipn (a + b) l = skipn b (skipn a l).
Proof. revert l. induction a as [|a IH]; intros l; [reflexivity|]. destruct l; [destruct b; reflexivity|]. cbn. apply IH. Qed.
(** Dropping the bytes of the first [j] characters. *)
Lemma units_skip w : forall j l, units w (skipn (j * width_bytes w) l) = skipn j (units w l).
Proof.
  assert (H : forall l, units w (skipn (width_bytes w) l) = skipn 1 (units w l)).
  { destruct w; intros l; cbn [width_bytes units].
    - destruct l; reflexivity.
    - destruct l as [|a [|b l]]; reflexivity.
    - destruct l as [|a [|b [|c [|d l]]]]; reflexivity. }
  induction j as [|j IH]; intros l; [reflexivity|].
  change (S j * width_bytes w) with (width_bytes w + j * width_bytes w).
  rewrite skipn_add, IH, H. symmetry. apply (skipn_add 1 j).
Qed.
Lemma decode_eq w l j c : Forall (fun b => (b < 256)%N) l -> nth_error (units w l) j = Some c ->
  decode_multi_byte_char l j (width_bytes w) = Some c.
Proof.
  intros Hs Hn. unfold decode_multi_byte_char.
  replace ((width_bytes w =? 1) || (width_bytes w =? 2) || (width_bytes w =? 4)) with true by (destruct w; reflexivity).
  assert (Hj : j < length (units w l)) by (apply nth_error_Some; congruence). rewrite units_length in Hj.
  assert (Hlen : (j + 1) * width_bytes w <= length l).
  { assert (Hp : 0 < width_bytes w) by (destruct w; cbn; lia). pose proof (Nat.mul_div_le (length l) (width_bytes w) ltac:(lia)). nia. }
  assert (Hnth : nth_error (units w (skipn (j * width_bytes w) l)) 0 = Some c).
  { rewrite units_skip. rewrite <- Hn. clear. revert j. induction (units w l) as [|x u IH]; intros [|j]; try reflexivity. cbn. apply IH. }
  assert (Hs' : Forall (fun b => (b < 256)%N) (skipn (j * width_bytes w) l)).
  { rewrite <- (firstn_skipn (j * width_bytes w) l) in Hs. apply Forall_app in Hs. apply Hs. }
  assert (Hl' : width_bytes w <= length (skipn (j * width_bytes w) l)) by (rewrite skipn_length; lia).
  replace (length l <? j * width_bytes w) with false by (symmetry; apply Nat.ltb_ge; lia).
  revert Hnth Hs' Hl'. generalize (skipn (j * width_bytes w) l) as m. intros m Hm Hsm Hlm.
  replace (length m <? width_bytes w) with false by (symmetry; apply Nat.ltb_ge; lia).
  rewrite <- Hm. destruct w; cbn [width_bytes units] in *.
  - destruct m as [|a m]; [cbn in Hlm; lia|]. cbn [firstn little_endian nth_error]. rewrite N.shiftl_0_r, N.lor_0_r. reflexivity.
  - destruct m as [|a [|b m]]; try (cbn in Hlm; lia). cbn [firstn little_endian nth_error units2].
    inversion Hsm as [|? ? Ha Hsm1]; subst. change (8 * 0)%N with 0%N. change (8 * (0 + 1))%N with 8%N.
    rewrite N.shiftl_0_r, N.lor_0_r, lor_add by exact Ha. reflexivity.
  - destruct m as [|a [|b [|c0 [|d m]]]]; try (cbn in Hlm; lia). cbn [firstn little_endian nth_error units4].
    inversion Hsm as [|? ? Ha Hsm1]; subst. inversion Hsm1 as [|? ? Hb Hsm2]; subst. inversion Hsm2 as [|? ? Hc Hsm3]; subst.
    change (8 * 0)%N with 0%N. change (8 * (0 + 1))%N with 8%N. change (8 * (0 + 1 + 1))%N with (8 + 8)%N. change (8 * (0 + 1 + 1 + 1))%N with (8 + 8 + 8)%N.
    rewrite N.shiftl_0_r, N.lor_0_r. rewrite <- !N.shiftl_shiftl, <- !N.shiftl_lor.
    rewrite (lor_add c0 d 8) by exact Hc. rewrite (lor_add b _ 8) by exact Hb. rewrite (lor_add a _ 8) by exact Ha.
    change (2 ^ 8)%N with 256%N. reflexivity.
Qed.

(** Sizes: a narrow literal is far below the output limit. *)
Lemma hex_loop_length fuel : forall n acc, length (hex_loop fuel n acc) <= fuel + length acc.
Proof.
  induction fuel as [|fuel IH]; intros n acc; cbn [hex_loop]; [lia|].
  destruct (_ <? _)%N; [cbn; lia|]. specialize (IH (n / 16)%N (hex_digit (n mod 16) :: acc)). cbn [length] in IH. lia.
Qed.
Lemma escape_length c : (c < 2 ^ 32)%N -> length (c_escape c) <= 36.
Proof.
  intros Hc. rewrite <- escape_eq. unfold escaped_char. destruct (lookup c escape_table) as [s|] eqn:Hl.
  - unfold escape_table in Hl. cbn [lookup] in Hl.
    repeat (destruct (_ =? _)%N; [injection Hl as <-; cbn; lia|]). discriminate.
  - destruct (in_range 32 126 c); [cbn; lia|]. rewrite app_length.
    assert (Hs : N.to_nat (N.size c) <= 32).
    { destruct (N.eq_dec c 0) as [->|Hz]; [cbn; lia|]. rewrite N.size_log2 by exact Hz.
      assert (N.log2 c < 32)%N by (apply N.log2_lt_pow2; [lia|exact Hc]). lia. }
    pose proof (hex_loop_length (S (N.to_nat (N.size c))) c []) as Hh. unfold hex2_N. cbn [length] in Hh.
    destruct (hex_loop _ _ _) as [|x [|y r]]; cbn [length] in *; change (length (L "\x")) with 2; lia.
Qed.
Lemma text_length l : Forall (fun c => (c < 2 ^ 32)%N) l -> length (c_text l) <= 36 * length l.
Proof.
  induction 1 as [|c l Hc _ IH]; [cbn; lia|]. unfold c_text in *. cbn [map concat length]. rewrite app_length.
  pose proof (escape_length c Hc). lia.
Qed.
Lemma units_small w l : Forall (fun b => (b < 256)%N) l -> Forall (fun c => (c < 2 ^ 32)%N) (units w l).
Proof.
  change (2 ^ 32)%N with 4294967296%N. intros Hl. destruct w; cbn [units].
  - eapply Forall_impl; [|exact Hl]. intros. cbv beta in *. lia.
  - assert (H : forall n l, length l <= n -> Forall (fun b => (b < 256)%N) l -> Forall (fun c => (c < 4294967296)%N) (units2 l)).
    { clear. induction n as [|n IH]; intros l Hn Hl; [destruct l; [constructor|cbn in Hn; lia]|].
      destruct l as [|a [|b l]]; try constructor; inversion Hl as [|? ? Ha Hl1]; subst; inversion Hl1 as [|? ? Hb Hl2]; subst.
      - lia.
      - apply IH; [cbn in Hn; lia|exact Hl2]. }
    eapply H; [reflexivity|exact Hl].
  - assert (H : forall n l, length l <= n -> Forall (fun b => (b < 256)%N) l -> Forall (fun c => (c < 4294967296)%N) (units4 l)).
    { clear. induction n as [|n IH]; intros l Hn Hl; [destruct l; [constructor|cbn in Hn; lia]|].
      destruct l as [|a [|b [|c [|d l]]]]; try constructor; inversion Hl as [|? ? Ha Hl1]; subst; inversion Hl1 as [|? ? Hb Hl2]; subst;
        inversion Hl2 as [|? ? Hc Hl3]; subst; inversion Hl3 as [|? ? Hd Hl4]; subst.
      - lia.
      - apply IH; [cbn in Hn; lia|exact Hl4]. }
    eapply H; [reflexivity|exact Hl].
Qed.
Lemma units_le w l : length (units w l) <= length l.
Proof. rewrite units_length. apply Nat.div_le_upper_bound; destruct w; cbn; lia. Qed.
Lemma removelast_prop {A} (P : A -> Prop) l : Forall P l -> Forall P (removelast l) /\ length (removelast l) <= length l.
Proof.
  induction 1 as [|x l Hx Hl IH]; [split; [constructor|reflexivity]|]. destruct l as [|y l]; [split; [constructor|cbn; lia]|].
  destruct IH as [H1 H2]. split; [constructor; assumption|]. cbn in *. lia.
Qed.

(** The common frame of both kinds of literal. *)
Lemma literal_frame E (wide : bool) nt len crc body rest sg f n :
  num_text nt len -> ((if wide then 2 else 1) <= len)%N -> ~ In (ch "@") crc -> body <> [] ->
  demangle_string_literal E (at_ (L "@_" ++ L (if wide then "1" else "0") ++ nt ++ crc ++ L "@" ++ body ++ rest) sg f n) =
  ('(ob, k, trunc) <-
          (if wide then
             let trunc := (64 <? len)%N in
             ob <- wide_loop E (S (length (body ++ rest))) len trunc (mkBuf [] 0) ;;
             ret (ob, CKWchar, trunc)
           else
             bytes <- narrow_loop (S (length (body ++ rest))) [] ;;
             let trunc := (N.of_nat (length bytes) <? len)%N in
             sz <- ok_or (guess_char_byte_size bytes len) InvalidStringLiteral ;;
             k <- (if sz =? 1 then ret CKChar
                   else if sz =? 2 then ret CKChar16
                   else if sz =? 4 then ret CKChar32
                   else fail InvalidStringLiteral) ;;
             let num := length bytes / sz in
             ob <- narrow_out E bytes sz num 0 num trunc (mkBuf [] 0) ;;
             ret (ob, k, trunc)) ;;
        text <- take_text ob ;;
        intern E (NStrLit None text trunc k)) (at_ (body ++ rest) sg f n).
Proof.
  intros Hn Hl Hc Hb. unfold demangle_string_literal.
  erewrite bind_eq by apply expects_yes.
  change (L (if wide then "1" else "0") ++ nt ++ crc ++ L "@" ++ body ++ rest) with
    (L (if wide then "1" else "0") ++ (nt ++ crc ++ L "@" ++ body ++ rest)).
  replace (L (if wide then "1" else "0") ++ (nt ++ crc ++ L "@" ++ body ++ rest)) with
    (ch (if wide then "1" else "0") :: nt ++ crc ++ L "@" ++ body ++ rest) by (destruct wide; reflexivity).
  erewrite bind_eq by apply next_at.
  erewrite (bind_eq _ _ _ wide) by (destruct wide; reflexivity).
  erewrite bind_eq by (apply (number_at nt len false); exists nt; auto).
  cbv beta iota. replace (false || (len <? (if wide then 2 else 1))%N) with false by (symmetry; apply N.ltb_ge; exact Hl).
  erewrite bind_eq by apply text_at.
  rewrite (find_char_app (ch "@") crc (body ++ rest) Hc : find_char (ch "@") (crc ++ L "@" ++ body ++ rest) = _).
  erewrite bind_eq by reflexivity.
  assert (Hsb : str_bytes crc + 1 = str_bytes (crc ++ L "@")) by (rewrite str_bytes_app; reflexivity).
  rewrite Hsb, (app_assoc crc (L "@") (body ++ rest)). erewrite bind_eq by apply bytes_at. erewrite bind_eq by reflexivity.
  erewrite bind_eq by apply text_at. destruct (body ++ rest) as [|x r] eqn:He; [apply app_eq_nil in He; tauto|]. cbn [is_empty].
  destruct wide; reflexivity.
Qed.

(** From the decoded text to the result of the call. *)
Lemma literal_done E s (y : str) (trunc : bool) k r :
  Forall printable y ->
  demangle_string_literal (code_limits E) (at_ s [] [] []) = r ->
  (r = Err (Io OutOfMemory) -> (out_limit <= N.of_nat (length y))%N) ->
  (r <> Err (Io OutOfMemory) -> exists t, r = Ok (0, at_ t [NStrLit None y trunc k] [] [])) ->
  demangle E (L "??_C" ++ s) =
  let z := str_prefix k ++ y ++ L """" ++ (if trunc then L "..." else []) in
  if (N.of_nat (length z) <? out_limit)%N then Ok z else Err (Io OutOfMemory).
Proof.
  intros Hy Hr Hoom Hok. set (z := str_prefix k ++ y ++ _). cbv zeta.
  unfold demangle, demangle_with, demangle_into_with, parse, parse_with. cbn [knot_of k_parse].
  rewrite do_parse_string. unfold bind. rewrite Hr.
  assert (Hdec : r = Err (Io OutOfMemory) \/ r <> Err (Io OutOfMemory)).
  { destruct r as [a|e| |]; try (right; discriminate). destruct e as [| | | | | | | | | | | | | | | | | | | | | | | | | | | | | | | | | | | | | | | | | | |[]| |];
      try (right; discriminate). left; reflexivity. }
  destruct Hdec as [He|Hne].
  - rewrite He. replace (_ <? _)%N with false; [reflexivity|]. symmetry. apply N.ltb_ge. specialize (Hoom He).
    unfold z. rewrite !app_length. lia.
  - destruct (Hok Hne) as [t ->]. unfold ret. cbv beta iota. cbn [s_store at_].
    rewrite (strlit_output _ _ _ None y trunc k) by reflexivity. fold z.
    assert (Hz : Forall printable z).
    { unfold z. repeat (apply Forall_app; split); try exact Hy; try (repeat constructor; discriminate).
      - destruct k; repeat constructor; discriminate.
      - destruct trunc; repeat constructor; discriminate. }
    unfold put. change (clear (mkBuf [] 0)) with (mkBuf [] 0).
    assert (Hu : utf8 z = z) by (apply utf8_ascii, printable_ascii, Hz).
    assert (Hf : from_utf8 z = Some z) by (apply from_utf8_ascii, printable_ascii, Hz).
    assert (Hw : exists cap ob, w_str (code_limits E) z (mkBuf [] 0) =
       if (N.of_nat (length z) <? out_limit)%N then (mkBuf z cap, Ok tt) else (ob, Err (Io OutOfMemory))).
    { unfold w_str. assert (Hne' : z <> []) by (unfold z; destruct k; discriminate). clearbody z.
      destruct z as [|c z']; [congruence|]. eexists. eexists. cbv zeta. rewrite Hu. cbn [b_bytes app]. rewrite Nat.add_0_l.
      change (e_out (code_limits E)) with out_limit. destruct (_ <? _)%N; reflexivity. }
    destruct Hw as (cap & ob & ->). destruct (_ <? _)%N; [|reflexivity]. cbn [b_bytes]. rewrite Hf. cbn [b_bytes]. rewrite Hf. reflexivity.
Qed.

(** A narrow literal demangles to its text, whatever follows it and whatever the flags and
    the check sum. *)
Theorem narrow_string_literal : forall E nt len crc ts l rest,
  num_text nt len -> (1 <= len)%N -> ~ In (ch "@") crc -> bytes_text ts l -> length l <= 128 ->
  demangle E (L "??_C@_0" ++ nt ++ crc ++ L "@" ++ ts ++ L "@" ++ rest) = Ok (narrow_text l len).
Proof.
  intros E nt len crc ts l rest Hn Hl Hc Hb H128.
  change (L "??_C@_0" ++ nt ++ crc ++ L "@" ++ ts ++ L "@" ++ rest) with
    (L "??_C" ++ (L "@_" ++ L (if false then "1" else "0") ++ nt ++ crc ++ L "@" ++ ts ++ (L "@" ++ rest))).
  rewrite (app_assoc ts (L "@") rest).
  set (w := guess_width l len). set (trunc := (N.of_nat (length l) <? len)%N).
  set (y := c_text (if trunc then units w l else removelast (units w l))).
  set (k := match w with W1 => CKChar | W2 => CKChar16 | W4 => CKChar32 end).
  assert (Hlen : length y <= 36 * 128).
  { assert (Hsm := units_small w l (bytes_small _ _ Hb)). unfold y. destruct (removelast_prop _ _ Hsm) as [H1 H2]. pose proof (units_le w l).
    destruct trunc; (eapply Nat.le_trans; [apply text_length; assumption|]); lia. }
  assert (Hy : Forall printable y) by apply printable_text.
  assert (Hu : utf8 y = y) by (apply utf8_ascii, printable_ascii, Hy).
  assert (Hrun : exists t, demangle_string_literal (code_limits E)
            (at_ (L "@_" ++ L (if false then "1" else "0") ++ nt ++ crc ++ L "@" ++ (ts ++ L "@") ++ rest) [] [] []) =
          Ok (0, at_ t [NStrLit None y trunc k] [] [])).
  { exists rest. rewrite (literal_frame (code_limits E) false nt len crc (ts ++ L "@") rest); [|assumption|assumption|assumption|destruct ts; discriminate].
    rewrite <- (app_assoc ts (L "@") rest).
    destruct (narrow_out_at (code_limits E) l (width_bytes w) trunc (at_ rest [] [] []) (units w l) 0 (mkBuf [] 0)) as [cap Ho].
    { intros j c Hj. apply decode_eq; [eapply bytes_small; eassumption|exact Hj]. }
    { reflexivity. }
    rewrite units_length in Ho. cbn [Nat.add b_bytes length app] in Ho. fold y in Ho. rewrite Hu in Ho.
    replace (_ <? _)%N with true in Ho.
    2:{ symmetry. apply N.ltb_lt. cbn [e_out code_limits]. unfold out_limit. lia. }
    erewrite bind_eq.
    2:{ erewrite bind_eq by (apply (narrow_loop_at _ _ _ _ _ _ Hb); [pose proof (bytes_length _ _ Hb); rewrite app_length; lia|cbn; lia]).
        cbn [rev app]. cbv zeta. rewrite (guess_eq l len Hl). fold w. erewrite bind_eq by reflexivity.
        erewrite (bind_eq _ _ _ k) by (destruct w; reflexivity).
        fold trunc. erewrite bind_eq by exact Ho. reflexivity. }
    cbv beta iota. unfold take_text. cbn [b_bytes]. rewrite from_utf8_ascii by (apply printable_ascii; exact Hy).
    erewrite bind_eq by reflexivity. apply (intern_at (code_limits E) _ rest []). discriminate. }
  destruct Hrun as [t Hrun].
  rewrite (literal_done E _ y trunc k _ Hy Hrun); [|discriminate|intros _; exists t; reflexivity]. cbv zeta.
  assert (Hz : str_prefix k ++ y ++ L """" ++ (if trunc then L "..." else []) = narrow_text l len).
  { unfold narrow_text, y. fold w. fold trunc. subst k. destruct w, trunc; cbn [quote str_prefix]; rewrite ?app_nil_r; reflexivity. }
  rewrite Hz. replace (_ <? _)%N with true; [reflexivity|]. symmetry. apply N.ltb_lt. rewrite <- Hz, !app_length. unfold out_limit.
  assert (length (str_prefix k) <= 2) by (destruct k; cbn; lia). assert (length (if trunc then L "..." else []) <= 3) by (destruct trunc; cbn; lia).
  change (length (L """")) with 1. lia.
Qed.
Print Assumptions narrow_string_literal.

(** *** Wide literals *)
(** The characters the loop writes, as it counts the declared length down. *)
Fixpoint sel (len : N) (trunc : bool) (u : list N) : list N :=
  match u with
  | [] => []
  | c :: u => (if negb (len =? 2)%N || trunc then [c] else []) ++ sel (len - 2) trunc u
  end.
Lemma sel_trunc u : forall len, sel len true u = u.
Proof. induction u as [|c u IH]; intros len; [reflexivity|]. cbn [sel]. rewrite orb_true_r, IH. reflexivity. Qed.
Lemma sel_zero u : sel 0 false u = u.
Proof. induction u as [|c u IH]; [reflexivity|]. cbn [sel]. change (0 - 2)%N with 0%N. rewrite IH. reflexivity. Qed.
Lemma sel_odd u : forall k, sel (2 * k + 1) false u = u.
Proof.
  induction u as [|c u IH]; intros k; [reflexivity|]. cbn [sel]. replace (2 * k + 1 =? 2)%N with false by (symmetry; apply N.eqb_neq; lia).
  cbn [negb orb app]. f_equal. destruct (N.eq_dec k 0) as [->|Hk]; [apply sel_zero|].
  replace (2 * k + 1 - 2)%N with (2 * (k - 1) + 1)%N by lia. apply IH.
Qed.
Lemma sel_even : forall k u, sel (2 * N.of_nat (S k)) false u = firstn k u ++ skipn (S k) u.
Proof.
  induction k as [|k IH]; intros u; (destruct u as [|c u]; [reflexivity|]); cbn [sel].
  - replace (2 * N.of_nat 1)%N with 2%N by lia. cbn [N.eqb Pos.eqb negb orb app firstn skipn]. apply sel_zero.
  - replace (2 * N.of_nat (S (S k)) =? 2)%N with false by (symmetry; apply N.eqb_neq; lia). cbn [negb orb app firstn].
    replace (2 * N.of_nat (S (S k)) - 2)%N with (2 * N.of_nat (S k))%N by lia. rewrite IH. reflexivity.
Qed.
Lemma sel_spec len u : (2 <= len)%N -> sel len false u =
  if N.even len then firstn (N.to_nat len / 2 - 1) u ++ skipn (N.to_nat len / 2) u else u.
Proof.
  intros Hl. destruct (N.even len) eqn:He.
  - apply N.even_spec in He. destruct He as [k ->]. assert (Hk : exists j, k = N.of_nat (S j)) by (exists (N.to_nat k - 1); lia).
    destruct Hk as [j ->]. rewrite sel_even. replace (N.to_nat (2 * N.of_nat (S j))) with (S j * 2) by lia.
    rewrite Nat.div_mul by lia. cbn [Nat.sub]. rewrite Nat.sub_0_r. reflexivity.
  - assert (Ho : N.odd len = true) by (rewrite <- N.negb_even, He; reflexivity). apply N.odd_spec in Ho. destruct Ho as [k ->]. apply sel_odd.
Qed.

Lemma low_at t b r sg f n : byte_text t b \/ t = L "@" /\ b = ch "@" -> demangle_char_literal (at_ (t ++ r) sg f n) = Ok (b, at_ r sg f n).
Proof. intros [H|[-> ->]]; [apply byte_at; exact H|]. unfold demangle_char_literal. cbn [app L]. erewrite bind_eq by apply (next_at _ (ch "@")). reflexivity. Qed.
Lemma low_small t b : byte_text t b \/ t = L "@" /\ b = ch "@" -> (b < 256)%N.
Proof. intros [H|[-> ->]]; [eapply byte_small; eassumption|reflexivity]. Qed.
Lemma bytes_wides : forall m ts l, bytes_text ts l -> length l = 2 * m -> wides_text ts l.
Proof.
  induction m as [|m IH]; intros ts l Hb Hl.
  - destruct Hb; [constructor|cbn in Hl; lia].
  - destruct Hb as [|t1 a ts1 bs1 H1 Hb]; [cbn in Hl; lia|]. destruct Hb as [|t2 b ts2 bs2 H2 Hb]; [cbn in Hl; lia|].
    constructor; [exact H1|left; exact H2|]. apply IH; [exact Hb|cbn in Hl; lia].
Qed.
Lemma wides_length t l : wides_text t l -> length l <= length t.
Proof.
  induction 1 as [|t1 a t2 b ts bs H1 H2 _ IH]; cbn; [lia|]. rewrite !app_length. destruct (byte_head t1 a [] H1) as (_ & _ & ?).
  assert (1 <= length t2) by (destruct H2 as [H2|[-> _]]; [destruct (byte_head t2 b [] H2) as (_ & _ & ?); assumption|cbn; lia]). lia.
Qed.

Lemma wide_loop_at E trunc rest sg f n : forall ts l, wides_text ts l -> forall fuel len ob,
  length l < fuel -> (N.of_nat (length (b_bytes ob)) < e_out E)%N ->
  exists cap, wide_loop E fuel len trunc ob (at_ (ts ++ L "@" ++ rest) sg f n) =
    let x := c_text (sel len trunc (wide_units l)) in
    if (N.of_nat (length (b_bytes ob) + length (utf8 x)) <? e_out E)%N
    then Ok (mkBuf (b_bytes ob ++ utf8 x) cap, at_ rest sg f n) else Err (Io OutOfMemory).
Proof.
  induction 1 as [|t1 a t2 b ts2 bs2 H1 H2 Hb IH]; intros fuel len ob Hf Hob; (destruct fuel as [|fuel]; [cbn in Hf; lia|]); cbn [wide_loop].
  - exists (b_cap ob). cbn [app]. erewrite bind_eq by apply (eat_yes (ch "@")).
    cbn [wide_units sel c_text map concat utf8 flat_map length]. cbv zeta. rewrite Nat.add_0_r, app_nil_r.
    apply N.ltb_lt in Hob. rewrite Hob. destruct ob. reflexivity.
  - rewrite <- !app_assoc. destruct (byte_head t1 a (t2 ++ ts2 ++ L "@" ++ rest) H1) as (Hs & He & L1).
    assert (L2 : 1 <= length t2).
    { destruct H2 as [H2|[-> _]]; [destruct (byte_head t2 b [] H2) as (_ & _ & ?); assumption|cbn; lia]. }
    rewrite (bind_eq _ _ _ _ _ (eat_no (ch "@") _ sg f n Hs)).
    rewrite (bind_eq _ _ _ _ _ (text_at _ sg f n)).
    replace (str_bytes _ <? 2) with false.
    2:{ symmetry. apply Nat.ltb_ge. rewrite !str_bytes_app. destruct t1 as [|c1 t1]; [cbn in L1; lia|]. destruct t2 as [|c2 t2]; [cbn in L2; lia|].
        pose proof (utf8_len_pos c1). pose proof (utf8_len_pos c2). rewrite !str_bytes_cons. lia. }
    assert (Hw : demangle_wchar_literal (at_ (t1 ++ t2 ++ ts2 ++ L "@" ++ rest) sg f n) = Ok ((256 * a + b)%N, at_ (ts2 ++ L "@" ++ rest) sg f n)).
    { unfold demangle_wchar_literal. erewrite bind_eq by (apply byte_at; exact H1). erewrite bind_eq by (apply low_at; exact H2).
      unfold ret. do 2 f_equal. rewrite N.lor_comm, lor_add by (eapply low_small; eassumption). change (2 ^ 8)%N with 256%N. lia. }
    rewrite (bind_eq _ _ _ _ _ Hw). cbn [wide_units sel].
    cbn [length] in Hf.
    destruct (negb (len =? 2)%N || trunc); cbn [w_if].
    + assert (Hf' : length bs2 < fuel) by lia.
      rewrite escape_eq. destruct (run_str_eq E (c_escape (256 * a + b)) ob (at_ (ts2 ++ L "@" ++ rest) sg f n) (escape_nonempty _)) as [cap Hr].
      unfold bind. rewrite Hr. cbv zeta. change (c_text ([(256 * a + b)%N] ++ ?u)) with (c_escape (256 * a + b) ++ c_text u).
      rewrite utf8_app, app_length.
      destruct (N.ltb_spec (N.of_nat (length (b_bytes ob) + length (utf8 (c_escape (256 * a + b))))) (e_out E)) as [Hlt|Hge].
      * destruct (IH fuel (len - 2)%N (mkBuf (b_bytes ob ++ utf8 (c_escape (256 * a + b))) cap) Hf') as [cap' Hk'].
        { cbn [b_bytes]. rewrite app_length. exact Hlt. }
        exists cap'. cbn [b_bytes] in Hk'. rewrite Hk', app_length, <- app_assoc. cbv zeta.
        rewrite Nat.add_assoc. reflexivity.
      * exists 0%N. replace (_ <? _)%N with false; [reflexivity|]. symmetry. apply N.ltb_ge. lia.
    + erewrite bind_eq by reflexivity. apply IH; [lia|exact Hob].
Qed.

(** A wide literal demangles to its text; only a text beyond the output limit is an error. *)
Theorem wide_string_literal : forall E nt len crc ts l rest,
  num_text nt len -> (2 <= len)%N -> ~ In (ch "@") crc -> wides_text ts l ->
  demangle E (L "??_C@_1" ++ nt ++ crc ++ L "@" ++ ts ++ L "@" ++ rest) =
  if (N.of_nat (length (wide_text l len)) <? out_limit)%N then Ok (wide_text l len) else Err (Io OutOfMemory).
Proof.
  intros E nt len crc ts l rest Hn Hl Hc Hb.
  change (L "??_C@_1" ++ nt ++ crc ++ L "@" ++ ts ++ L "@" ++ rest) with
    (L "??_C" ++ (L "@_" ++ L (if true then "1" else "0") ++ nt ++ crc ++ L "@" ++ ts ++ (L "@" ++ rest))).
  rewrite (app_assoc ts (L "@") rest).
  set (trunc := (64 <? len)%N). set (y := c_text (sel len trunc (wide_units l))).
  assert (Hy : Forall printable y) by apply printable_text.
  assert (Hu : utf8 y = y) by (apply utf8_ascii, printable_ascii, Hy).
  assert (Hrun : demangle_string_literal (code_limits E)
            (at_ (L "@_" ++ L (if true then "1" else "0") ++ nt ++ crc ++ L "@" ++ (ts ++ L "@") ++ rest) [] [] []) =
          if (N.of_nat (length y) <? out_limit)%N then Ok (0, at_ rest [NStrLit None y trunc CKWchar] [] []) else Err (Io OutOfMemory)).
  { rewrite (literal_frame (code_limits E) true nt len crc (ts ++ L "@") rest); [|assumption|assumption|assumption|destruct ts; discriminate].
    rewrite <- (app_assoc ts (L "@") rest). fold trunc.
    destruct (wide_loop_at (code_limits E) trunc rest [] [] [] ts l Hb (S (length (ts ++ L "@" ++ rest))) len (mkBuf [] 0)) as [cap Ho].
    { pose proof (wides_length _ _ Hb). rewrite app_length. lia. }
    { reflexivity. }
    cbv zeta in Ho. cbn [b_bytes length] in Ho. fold y in Ho. rewrite Hu, Nat.add_0_l in Ho. cbn [app] in Ho. cbn [e_out code_limits] in Ho.
    destruct (N.of_nat (length y) <? out_limit)%N.
    - erewrite bind_eq by (cbv zeta; erewrite bind_eq by exact Ho; reflexivity).
      cbv beta iota. unfold take_text. cbn [b_bytes]. rewrite from_utf8_ascii by (apply printable_ascii; exact Hy).
      erewrite bind_eq by reflexivity. apply (intern_at (code_limits E) _ rest []). discriminate.
    - cbv zeta. unfold bind at 1. erewrite bind_err by exact Ho. reflexivity. }
  rewrite (literal_done E _ y trunc CKWchar _ Hy Hrun).
  - cbv zeta. assert (Hz : str_prefix CKWchar ++ y ++ L """" ++ (if trunc then L "..." else []) = wide_text l len).
    { unfold wide_text, y. fold trunc. destruct trunc; cbn [str_prefix]; [rewrite sel_trunc|rewrite sel_spec, app_nil_r by exact Hl]; reflexivity. }
    rewrite Hz. reflexivity.
  - destruct (N.ltb_spec (N.of_nat (length y)) out_limit); [discriminate|auto].
  - destruct (N.of_nat (length y) <? out_limit)%N; [eauto|congruence].
Qed.
Print Assumptions wide_string_literal.

(** *** C strings *)
(** Every byte string has an encoding. *)
Lemma every_byte_encodes : forall l, Forall (fun b => (b < 256)%N) l -> exists ts, bytes_text ts l.
Proof.
  induction 1 as [|b l Hb _ [ts IH]]; [exists []; constructor|].
  exists ((L "?$" ++ [ch "A" + b / 16; ch "A" + b mod 16])%N ++ ts). constructor; [|exact IH].
  pose proof (N.div_mod b 16 ltac:(discriminate)) as Hd. rewrite Hd at 3. constructor.
  - apply N.div_lt_upper_bound; lia.
  - apply N.mod_lt. discriminate.
Qed.
Lemma guess_c_string s : Forall (fun b => (1 <= b < 256)%N) s ->
  guess_width (firstn 32 (s ++ [0%N])) (N.of_nat (length s + 1)) = W1.
Proof.
  intros Hs. unfold guess_width. destruct (N.odd _) eqn:Hodd; [reflexivity|].
  assert (Hz : forall l, Forall (fun b => (1 <= b < 256)%N) l -> zeros l = 0).
  { induction 1 as [|b l Hb _ IH]; [reflexivity|]. unfold zeros in *. cbn [count_occ]. destruct (N.eq_dec b 0); [lia|exact IH]. }
  assert (Hzz : zeros (firstn 32 (s ++ [0%N])) <= 1).
  { rewrite firstn_app. unfold zeros. rewrite count_occ_app. fold (zeros (firstn 32 s)). rewrite Hz.
    - destruct (32 - length s) as [|m]; [cbn; lia|]. rewrite firstn_cons, firstn_nil. cbn. lia.
    - rewrite <- (firstn_skipn 32 s) in Hs. apply Forall_app in Hs. apply Hs. }
  destruct (N.ltb_spec (N.of_nat (length s + 1)) 32) as [Hlt|Hge].
  - assert (H2 : ends_with_zeros 2 (firstn 32 (s ++ [0%N])) = false).
    { rewrite firstn_all2 by (rewrite app_length; cbn; lia). destruct s as [|b0 s0] eqn:Es using rev_ind; [reflexivity|].
      rewrite <- app_assoc. unfold ends_with_zeros. rewrite !app_length. cbn [length app].
      replace (length s0 + (1 + 1) - 2) with (length s0) by lia. rewrite skipn_app, Nat.sub_diag, skipn_all. cbn [app skipn forallb].
      apply Forall_app in Hs. destruct Hs as [_ Hs]. inversion Hs; subst. replace (b0 =? 0)%N with false by (symmetry; apply N.eqb_neq; lia).
      apply andb_false_r. }
    assert (H4 : ends_with_zeros 4 (firstn 32 (s ++ [0%N])) = false).
    { rewrite ends_zeros_spec in *. apply Nat.leb_gt in H2. apply Nat.leb_gt. lia. }
    rewrite H4, H2. reflexivity.
  - assert (Hl : length (firstn 32 (s ++ [0%N])) = 32) by (rewrite firstn_length_le; [reflexivity|rewrite app_length; cbn [length]; lia]).
    rewrite Hl. change (2 * 32 / 3) with 21. change (32 / 3) with 10.
    replace (21 <=? _) with false by (symmetry; apply Nat.leb_gt; lia).
    replace (10 <=? _) with false by (symmetry; apply Nat.leb_gt; lia). reflexivity.
Qed.
(** The literal of a C string [s] without zero bytes, as the compiler encodes it: the declared
    length counts the terminator, and at most 32 bytes are given.  It demangles to the quoted,
    escaped string, with dots when it was cut. *)
Theorem c_string_literal : forall E s nt crc ts rest,
  Forall (fun b => (1 <= b < 256)%N) s ->
  num_text nt (N.of_nat (length s + 1)) -> ~ In (ch "@") crc -> bytes_text ts (firstn 32 (s ++ [0%N])) ->
  demangle E (L "??_C@_0" ++ nt ++ crc ++ L "@" ++ ts ++ L "@" ++ rest) =
  Ok (if length s <? 32 then L """" ++ c_text s ++ L """" else L """" ++ c_text (firstn 32 s) ++ L """...").
Proof.
  intros E s nt crc ts rest Hs Hn Hc Hb. rewrite (narrow_string_literal E nt _ crc ts (firstn 32 (s ++ [0%N])) rest Hn); [|lia|exact Hc|exact Hb|rewrite firstn_length; lia].
  unfold narrow_text. rewrite guess_c_string by exact Hs. cbn [units quote]. f_equal.
  destruct (Nat.ltb_spec (length s) 32) as [Hlt|Hge].
  - rewrite firstn_all2 by (rewrite app_length; cbn; lia). rewrite app_length. cbn [length].
    replace (_ <? _)%N with false by (symmetry; apply N.ltb_ge; lia).
    rewrite removelast_app by discriminate. cbn [removelast]. rewrite app_nil_r. reflexivity.
  - rewrite firstn_app. replace (32 - length s) with 0 by lia. change (firstn 0 [0%N]) with (@nil N). rewrite app_nil_r, firstn_length_le by lia.
    replace (_ <? _)%N with true by (symmetry; apply N.ltb_lt; lia). reflexivity.
Qed.
Print Assumptions c_string_literal.

(** A string of five bytes, one of them spelled by its class of special characters. *)
Example c_string_example : forall E,
  demangle E (L "??_C@_05CJBACGMB@he?$CCl?0?$AA@") = Ok (L """he\""l,""").
Proof.
  intros E. pose proof (c_string_literal E [104; 101; 34; 108; 44]%N (L "5") (L "CJBACGMB") (L "he?$CCl?0?$AA") []) as H.
  apply H.
  - repeat constructor; discriminate.
  - apply (num_digit 5). reflexivity.
  - intros Hin. repeat (destruct Hin as [Hin|Hin]; [discriminate|]). contradiction.
  - apply (bs_cons (L "h")); [apply by_plain; [reflexivity|discriminate|discriminate]|].
    apply (bs_cons (L "e")); [apply by_plain; [reflexivity|discriminate|discriminate]|].
    apply (bs_cons (L "?$CC") 34%N); [apply (by_hex 2 2); reflexivity|].
    apply (bs_cons (L "l")); [apply by_plain; [reflexivity|discriminate|discriminate]|].
    apply (bs_cons (L "?0")); [apply (by_punctuation 0); [lia|reflexivity]|].
    apply (bs_cons (L "?$AA") 0%N []); [apply (by_hex 0 0); reflexivity|]. constructor.
Qed.
(** The same in sixteen-bit and in wide characters, and a truncated one. *)
Example narrow_example16 : narrow_text [104; 0; 105; 0; 0; 0]%N 6 = L "u""hi""".
Proof. reflexivity. Qed.
Example wide_example : wide_text [0; 104; 1; 105; 0; 0]%N 6 = L "L""h\x169""".
Proof. reflexivity. Qed.
Example wide_truncated_example : wide_text [0; 104; 0; 105]%N 70 = L "L""hi""...".
Proof. reflexivity. Qed.
