(** Reading a string literal anywhere in a text.  Proof infrastructure for [Trip]. *)
From Verif Require Import Api Utf8 Lex Number Step Format Show Literal StrLit.

Lemma literal_read E t x : literal (e_out E) t x -> exists u y (trunc : bool) k, t = L "??_C" ++ u /\ ustr y /\
  x = str_prefix k ++ y ++ L """" ++ (if trunc then L "..." else []) /\
  forall rest sg f n, demangle_string_literal E (at_ (u ++ rest) sg f n) = intern E (NStrLit None y trunc k) (at_ rest sg f n).
Proof.
  intros H. destruct H as [nt len crc ts l Hn Hl Hc Hb H128 Hfit|nt len crc ts l Hn Hl Hc Hb Hfit].
  - set (w := guess_width l len). set (trunc := (N.of_nat (length l) <? len)%N). set (y := c_text (narrow_chars l len)) in *.
    set (k := match w with W1 => CKChar | W2 => CKChar16 | W4 => CKChar32 end).
    assert (Hy : Forall printable y) by apply printable_text.
    assert (Hu : utf8 y = y) by (apply utf8_ascii, printable_ascii, Hy).
    exists (L "@_" ++ L (if false then "1" else "0") ++ nt ++ crc ++ L "@" ++ (ts ++ L "@")), y, trunc, k.
    split; [reflexivity|]. split; [apply ascii_ustr, printable_ascii, Hy|]. split.
    { unfold narrow_text, y, narrow_chars. fold w. fold trunc. cbv zeta. subst k. destruct w, trunc; cbn [quote str_prefix]; rewrite ?app_nil_r; reflexivity. }
    intros rest sg f n. rewrite <- !app_assoc. rewrite (app_assoc ts (L "@") rest).
    rewrite (literal_frame E false nt len crc (ts ++ L "@") rest); [|assumption|assumption|assumption|destruct ts; discriminate].
    rewrite <- (app_assoc ts (L "@") rest).
    destruct (narrow_out_at E l (width_bytes w) trunc (at_ rest sg f n) (units w l) 0 (mkBuf [] 0)) as [cap Ho].
    { intros j c Hj. apply decode_eq; [eapply bytes_small; eassumption|exact Hj]. }
    { cbn [b_bytes length]. lia. }
    rewrite units_length in Ho. cbn [Nat.add b_bytes length app] in Ho.
    change (c_text (if trunc then units w l else removelast (units w l))) with y in Ho. rewrite Hu in Ho.
    apply N.ltb_lt in Hfit. rewrite Hfit in Ho.
    erewrite bind_eq.
    2:{ erewrite bind_eq by (apply (narrow_loop_at _ _ _ _ _ _ Hb); [pose proof (bytes_length _ _ Hb); rewrite app_length; lia|cbn; lia]).
        cbn [rev app]. cbv zeta. rewrite (guess_eq l len Hl). fold w. erewrite bind_eq by reflexivity.
        erewrite (bind_eq _ _ _ k) by (destruct w; reflexivity).
        fold trunc. erewrite bind_eq by exact Ho. reflexivity. }
    cbv beta iota. unfold take_text. cbn [b_bytes]. rewrite from_utf8_ascii by (apply printable_ascii; exact Hy).
    erewrite bind_eq by reflexivity. reflexivity.
  - set (trunc := (64 <? len)%N). 
    assert (Hsel : c_text (wide_chars l len) = c_text (sel len trunc (wide_units l))).
    { unfold wide_chars. fold trunc. cbv zeta. destruct trunc; [rewrite sel_trunc|rewrite sel_spec by exact Hl]; reflexivity. }
    set (y := c_text (wide_chars l len)) in *.
    assert (Hy : Forall printable y) by apply printable_text.
    assert (Hu : utf8 y = y) by (apply utf8_ascii, printable_ascii, Hy).
    exists (L "@_" ++ L (if true then "1" else "0") ++ nt ++ crc ++ L "@" ++ (ts ++ L "@")), y, trunc, CKWchar.
    split; [reflexivity|]. split; [apply ascii_ustr, printable_ascii, Hy|]. split.
    { unfold wide_text, y, wide_chars. fold trunc. cbv zeta. destruct trunc; cbn [str_prefix]; rewrite ?app_nil_r; reflexivity. }
    intros rest sg f n. rewrite <- !app_assoc. rewrite (app_assoc ts (L "@") rest).
    rewrite (literal_frame E true nt len crc (ts ++ L "@") rest); [|assumption|assumption|assumption|destruct ts; discriminate].
    rewrite <- (app_assoc ts (L "@") rest). fold trunc.
    destruct (wide_loop_at E trunc rest sg f n ts l Hb (S (length (ts ++ L "@" ++ rest))) len (mkBuf [] 0)) as [cap Ho].
    { pose proof (wides_length _ _ Hb). rewrite app_length. lia. }
    { cbn [b_bytes length]. lia. }
    cbv zeta in Ho. cbn [b_bytes length] in Ho. rewrite <- Hsel, Hu, Nat.add_0_l in Ho. cbn [app] in Ho.
    apply N.ltb_lt in Hfit. rewrite Hfit in Ho.
    erewrite bind_eq by (cbv zeta; erewrite bind_eq by exact Ho; reflexivity).
    cbv beta iota. unfold take_text. cbn [b_bytes]. rewrite from_utf8_ascii by (apply printable_ascii; exact Hy).
    erewrite bind_eq by reflexivity. reflexivity.
Qed.
