(** What a successful reading of a string literal has read.  Proof infrastructure for [Accepted]. *)
From Verif Require Import Api Utf8 Lex Number Step Format Show Literal StrLit LitRead Sound.

Section Back.
  Variables (sg : store) (f n : list handle).
  Notation at' t := (at_ t sg f n).

  Lemma rebased_inv x v : rebased_to_number x = Some v -> (v < 16)%N /\ x = (ch "A" + v)%N.
  Proof.
    unfold rebased_to_number, is_rebased, in_range. change (ch "A") with 65%N. change (ch "P") with 80%N. change (ch "J") with 74%N. change (ch "K") with 75%N.
    destruct ((65 <=? x) && (x <=? 80))%N eqn:H; [|discriminate]. apply andb_true_iff in H. destruct H as [H1 H2]. apply N.leb_le in H1, H2.
    destruct (N.leb_spec x 74) as [Hj|Hj]; intros Hv; apply (f_equal (fun o => match o with Some a => a | None => v end)) in Hv; cbv beta iota in Hv; lia.
  Qed.
  Lemma pw_low (Q : N -> st -> Prop) T : (forall t b r, byte_text t b \/ t = L "@" /\ b = ch "@" -> T = t ++ r -> Q b (at' r)) ->
    pw demangle_char_literal Q (at' T).
  Proof.
    intros H. unfold demangle_char_literal. apply pw_bind. apply pw_next. intros c r ->. apply pw_if.
    - intros Hc. apply N.eqb_eq in Hc. subst c. apply pw_bind. apply pw_next. intros d r' ->. apply pw_if; [|intros _; apply pw_if; [|intros _; apply pw_if; [|intros _; apply pw_if; [|intros _; exact I]]]].
      + intros Hd. apply N.eqb_eq in Hd. subst d. unfold pw at 1. unfold bind at 1. rewrite consume_2_eq by reflexivity.
        destruct r' as [|x [|y r']]; [exact I|exact I|]. change (tx (at' (x :: y :: r'))) with (x :: y :: r'). cbv iota.
        change (st_at r' (at' (x :: y :: r'))) with (at' r'). erewrite bind_eq by reflexivity. cbv beta iota.
        unfold bind. unfold ok_or. destruct (rebased_to_number x) as [v|] eqn:Hx; [|exact I]. destruct (rebased_to_number y) as [w|] eqn:Hy; [|exact I].
        apply rebased_inv in Hx, Hy. destruct Hx as [Hv ->], Hy as [Hw ->]. unfold ret. rewrite lor_nibbles by assumption.
        apply (H (L "?$" ++ [ch "A" + v; ch "A" + w])%N); [left; apply by_hex; assumption|reflexivity].
      + intros Hd. destruct (nth_error digit_escapes (N.to_nat (d - ch "0"))) as [b|] eqn:Hb; [|exact I]. apply pw_ret.
        unfold is_digit, in_range in Hd. apply andb_true_iff in Hd. destruct Hd as [H1 H2]. apply N.leb_le in H1, H2.
        change (ch "0") with 48%N in *. change (ch "9") with 57%N in *.
        apply (H [ch "?"; ch "0" + N.of_nat (N.to_nat (d - 48))]%N).
        * left. apply by_punctuation; [lia|exact Hb].
        * rewrite N2Nat.id. change (ch "0") with 48%N. cbn [app]. repeat f_equal. lia.
      + intros Hd. apply pw_ret. unfold is_lower, in_range in Hd. apply andb_true_iff in Hd. destruct Hd as [H1 H2]. apply N.leb_le in H1, H2.
        change (ch "a") with 97%N in *. change (ch "z") with 122%N in *.
        apply (H [ch "?"; ch "a" + (d - 97)]%N).
        * left. apply by_lower. lia.
        * change (ch "a") with 97%N. cbn [app]. repeat f_equal. lia.
      + intros Hd. apply pw_ret. unfold is_upper, in_range in Hd. apply andb_true_iff in Hd. destruct Hd as [H1 H2]. apply N.leb_le in H1, H2.
        change (ch "A") with 65%N in *. change (ch "Z") with 90%N in *.
        apply (H [ch "?"; ch "A" + (d - 65)]%N).
        * left. apply by_upper. lia.
        * change (ch "A") with 65%N. cbn [app]. repeat f_equal. lia.
    - intros Hc. apply N.eqb_neq in Hc. apply pw_if; [|intros _; exact I]. intros Hs. apply N.ltb_lt in Hs. apply pw_ret.
      apply (H [c]); [|reflexivity]. destruct (N.eq_dec c (ch "@")) as [->|Hn]; [right; auto|left; apply by_plain; assumption].
  Qed.
  Lemma pw_byte (Q : N -> st -> Prop) T : starts (ch "@") T = false -> (forall t b r, byte_text t b -> T = t ++ r -> Q b (at' r)) ->
    pw demangle_char_literal Q (at' T).
  Proof.
    intros Hs H. apply pw_low. intros t b r [Hb|[-> ->]] ->; [eapply H; [exact Hb|reflexivity]|]. discriminate Hs.
  Qed.
  Lemma pw_narrow fuel : forall acc (Q : list N -> st -> Prop) T, length acc <= 128 ->
    (forall ts l r, bytes_text ts l -> length acc + length l <= 128 -> T = ts ++ L "@" ++ r -> Q (rev acc ++ l) (at' r)) ->
    pw (narrow_loop fuel acc) Q (at' T).
  Proof.
    induction fuel as [|fuel IH]; intros acc Q T Ha H; [exact I|]. cbn [narrow_loop]. apply pw_bind. apply pw_eat.
    - intros r ->. cbv iota. apply pw_ret. specialize (H [] [] r). rewrite app_nil_r in H. apply H; [constructor|cbn; lia|reflexivity].
    - intros Hs. cbv iota. apply pw_bind. apply pw_text. apply pw_if; [intros _; exact I|]. intros _. apply pw_bind. apply pw_byte; [exact Hs|].
      intros t b r Hb ->. apply pw_if; [intros _; exact I|]. intros Hle. apply Nat.leb_gt in Hle. apply IH; [cbn; lia|].
      intros ts l r' Hl Hn ->. cbn [rev length] in *. rewrite <- app_assoc. apply (H (t ++ ts) (b :: l)); [constructor; assumption|cbn; lia|].
      rewrite app_assoc. reflexivity.
  Qed.
  Lemma pw_wide E fuel : forall len trunc ob T,
    pw (wide_loop E fuel len trunc ob) (fun _ _ => exists ts l r, wides_text ts l /\ T = ts ++ L "@" ++ r) (at' T).
  Proof.
    induction fuel as [|fuel IH]; intros len trunc ob T; [exact I|]. cbn [wide_loop]. apply pw_bind. apply pw_eat.
    - intros r ->. cbv iota. apply pw_ret. exists [], [], r. split; [constructor|reflexivity].
    - intros Hs. cbv iota. apply pw_bind. apply pw_text. apply pw_if; [intros _; exact I|]. intros _. apply pw_bind.
      unfold demangle_wchar_literal. apply pw_bind. apply pw_byte; [exact Hs|]. intros t1 a r Ht ->. apply pw_bind. apply pw_low. intros t2 b r2 Ht2 ->. apply pw_ret.
      unfold pw, bind. destruct (run_w (w_if (negb (len =? 2)%N || trunc) (w_str E (escaped_char (N.lor (N.shiftl a 8) b)))) ob (at' r2)) as [[ob' s']| | |] eqn:Hr; try exact I.
      assert (s' = at' r2).
      { unfold run_w in Hr. destruct (w_if _ _ ob) as [? [[]| | |]]; congruence. }
      subst s'. specialize (IH (len - 2)%N trunc ob' r2). unfold pw in IH. destruct (wide_loop _ _ _ _ _ _) as [[]| | |]; try exact I.
      destruct IH as (ts & l & r & Hl & ->). exists (t1 ++ t2 ++ ts), (a :: b :: l), r. split; [constructor; assumption|]. rewrite <- !app_assoc. reflexivity.
  Qed.

  Lemma pw_literal E (Q : handle -> st -> Prop) T : (0 < e_out E)%N ->
    (forall u x y (trunc : bool) k rest, literal (e_out E) (L "??_C" ++ u) x -> T = u ++ rest -> ustr y ->
      x = str_prefix k ++ y ++ L """" ++ (if trunc then L "..." else []) ->
      pw (intern E (NStrLit None y trunc k)) Q (at' rest)) ->
    pw (demangle_string_literal E) Q (at' T).
  Proof.
    intros HE H.
    assert (Hgo : forall t x rest, literal (e_out E) (L "??_C" ++ t) x -> T = t ++ rest -> pw (demangle_string_literal E) Q (at' T)).
    { intros t x rest Hl ->. pose proof (literal_read E _ _ Hl) as (u & y & trunc & k & Hu & Hy & Hx & Hr).
      apply app_inv_head in Hu. subst u. unfold pw. rewrite Hr. eapply H; [exact Hl|reflexivity|exact Hy|exact Hx]. }
    destruct (demangle_string_literal E (at' T)) as [[h s']| | |] eqn:Hd; try (unfold pw; rewrite Hd; exact I).
    assert (Hs : exists t x rest, literal (e_out E) (L "??_C" ++ t) x /\ T = t ++ rest); [|destruct Hs as (t & x & rest & Hl & Ht); exact (Hgo t x rest Hl Ht)].
    clear H Hgo.
    enough (Hp : pw (demangle_string_literal E) (fun _ _ => exists t x rest, literal (e_out E) (L "??_C" ++ t) x /\ T = t ++ rest) (at' T))
      by (unfold pw in Hp; rewrite Hd in Hp; exact Hp).
    clear Hd h s'. unfold demangle_string_literal. apply pw_bind. apply pw_expects. intros r ->. apply pw_bind. apply pw_next. intros c r1 ->. apply pw_bind.
    assert (Hk : forall wide : bool, c = ch (if wide then "1" else "0") ->
      pw ('(len, neg) <- demangle_number ;;
        if neg || (len <? (if wide then 2 else 1))%N then fail InvalidStringLiteral
        else
          s <- text ;;
          crc <- ok_or (find_char (ch "@") s) InvalidStringLiteral ;;
          o <- lift (try_consume_n_bytes (crc + 1)) ;;
          ok_or o InvalidStringLiteral ;;;
          s <- text ;;
          if is_empty s then fail InvalidStringLiteral
          else
            '(ob, k, trunc) <-
              (if wide then
                 let trunc := (64 <? len)%N in
                 ob <- wide_loop E (S (length s)) len trunc (mkBuf [] 0) ;;
                 ret (ob, CKWchar, trunc)
               else
                 bytes <- narrow_loop (S (length s)) [] ;;
                 let trunc := (N.of_nat (length bytes) <? len)%N in
                 sz <- ok_or (guess_char_byte_size bytes len) InvalidStringLiteral ;;
                 k <- (if sz =? 1 then ret CKChar
                       else if sz =? 2 then ret CKChar16
                       else if sz =? 4 then ret CKChar32
                       else fail InvalidStringLiteral) ;;
                 let num := length bytes / sz in
                 ob <- narrow_out E bytes sz num 0 num trunc (mkBuf [] 0) ;;
                 ret (ob, k, trunc)) ;;
            text <- take_text ob ;;
            intern E (NStrLit None text trunc k))
        (fun _ _ => exists t x rest, literal (e_out E) (L "??_C" ++ t) x /\ L "@_" ++ c :: r1 = t ++ rest) (at' r1)).
    2:{ apply pw_if; [|intros _; apply pw_if; [|intros _; exact I]].
        - intros Hc. apply N.eqb_eq in Hc. apply pw_ret. exact (Hk true Hc).
        - intros Hc. apply N.eqb_eq in Hc. apply pw_ret. exact (Hk false Hc). }
    intros wide ->. apply pw_bind. apply pw_number. intros nt len neg r2 Hnt ->. cbv beta iota. apply pw_if; [intros _; exact I|]. intros Hnl.
    apply orb_false_iff in Hnl. destruct Hnl as [-> Hlen]. apply N.ltb_ge in Hlen. destruct Hnt as (d & Hd & ->). cbn [app].
    apply pw_bind. apply pw_text. apply pw_bind. apply pw_ok_or. intros i Hi. apply find_char_spec in Hi. destruct Hi as (crc & b & -> & <- & Hcrc).
    assert (Hsb : str_bytes crc + 1 = str_bytes (crc ++ L "@")) by (rewrite str_bytes_app; reflexivity).
    change (crc ++ ch "@" :: b) with (crc ++ L "@" ++ b). rewrite Hsb, (app_assoc crc (L "@") b).
    eapply pw_step; [apply bytes_at|]. eapply pw_step; [reflexivity|]. apply pw_bind. apply pw_text. apply pw_if; [intros _; exact I|]. intros _.
    destruct wide.
    - cbv zeta. apply pw_bind. apply pw_bind.
      eapply pw_mono; [apply pw_and; [apply pw_wide|apply pw_conv; intros ob s' Ho; exact Ho]|].
      cbv beta. intros ob s' [(ts & l & r & Hl & Hb) Ho]. apply pw_ret. cbv iota beta. apply pw_any. intros _ _.
      subst b. 
      destruct (wide_loop_at E (64 <? len)%N r sg f n ts l Hl (S (length (ts ++ L "@" ++ r))) len (mkBuf [] 0)) as [cap Hw].
      { pose proof (wides_length _ _ Hl). rewrite app_length. lia. }
      { exact HE. }
      rewrite Ho in Hw. cbv zeta in Hw. cbn [b_bytes length] in Hw. rewrite Nat.add_0_l in Hw.
      assert (Hsel : c_text (wide_chars l len) = c_text (sel len (64 <? len)%N (wide_units l))).
      { unfold wide_chars. cbv zeta. destruct (64 <? len)%N; [rewrite sel_trunc|rewrite sel_spec by exact Hlen]; reflexivity. }
      rewrite <- Hsel, utf8_ascii in Hw by (apply printable_ascii, printable_text).
      destruct (N.ltb_spec (N.of_nat (length (c_text (wide_chars l len)))) (e_out E)) as [Hfit|]; [|discriminate Hw].
      exists (L "@_1" ++ d ++ crc ++ L "@" ++ ts ++ L "@"), (wide_text l len), r. split.
      + exact (li_wide (e_out E) d len crc ts l Hd Hlen Hcrc Hl Hfit).
      + change (L "@_" ++ ch (if true then "1" else "0") :: ?x) with (L "@_1" ++ x). rewrite <- !app_assoc. reflexivity.
    - apply pw_bind. apply pw_bind. apply pw_narrow; [cbn; lia|]. intros ts l r Hb Hl ->. cbn [rev app length] in *. cbv zeta.
      apply pw_bind. apply pw_ok_or. intros sz Hsz. rewrite (guess_eq l len Hlen) in Hsz. injection Hsz as <-. apply pw_bind. apply pw_any. intros k s0.
      apply pw_bind. set (w := guess_width l len). set (trunc := (N.of_nat (length l) <? len)%N).
      destruct (narrow_out_at E l (width_bytes w) trunc s0 (units w l) 0 (mkBuf [] 0)) as [cap Ho].
      { intros j c Hj. apply decode_eq; [eapply bytes_small; eassumption|exact Hj]. }
      { exact HE. }
      rewrite units_length in Ho. cbn [Nat.add b_bytes length] in Ho. unfold pw at 1. rewrite Ho.
      change (c_text (if trunc then units w l else removelast (units w l))) with (c_text (narrow_chars l len)).
      rewrite utf8_ascii by (apply printable_ascii, printable_text).
      destruct (N.ltb_spec (N.of_nat (length (c_text (narrow_chars l len)))) (e_out E)) as [Hfit|]; [|exact I].
      apply pw_ret. cbv iota beta. apply pw_any. intros _ _.
      exists (L "@_0" ++ d ++ crc ++ L "@" ++ ts ++ L "@"), (narrow_text l len), r. split.
      + exact (li_narrow (e_out E) d len crc ts l Hd Hlen Hcrc Hb Hl Hfit).
      + change (L "@_" ++ ch (if false then "1" else "0") :: ?x) with (L "@_0" ++ x). rewrite <- !app_assoc. reflexivity.
  Qed.
End Back.
