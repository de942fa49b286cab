(** C11: MD5 names are passed through unchanged. *)
From Verif Require Import Api Utf8 Lex Step Show.

(** The part of the input that is the name. *)
Definition md5_name (h rest : str) : str :=
  L "??@" ++ h ++ L "@" ++ opt (starts_with (L "??_R4@") rest) (L "??_R4@").

Lemma starts_opt p s : exists r, s = opt (starts_with p s) p ++ r.
Proof.
  unfold starts_with. destruct (strip_prefix p s) as [r|] eqn:H; [|exists s; reflexivity].
  apply strip_prefix_spec in H. eauto.
Qed.

Lemma parse_md5 E h rest : ~ In (ch "@") h -> (4 <= e_nodes E)%N ->
  exists t, demangle_md5_name E (init_st (L "??@" ++ h ++ L "@" ++ rest)) =
    Ok (3, at_ t [NNamed None (md5_name h rest); NNodes [0]; NQual 1; NMd5 2] [] []).
Proof.
  intros Hh Hn. destruct (starts_opt (L "??_R4@") rest) as [r Hr].
  exists r. unfold demangle_md5_name. change (init_st ?x) with (at_ x [] [] []).
  erewrite bind_eq by apply text_at. erewrite bind_eq by apply expects_yes. erewrite bind_eq by apply text_at.
  rewrite (find_char_app (ch "@") h rest Hh : find_char (ch "@") (h ++ L "@" ++ rest) = _). erewrite bind_eq by reflexivity.
  assert (Hb : str_bytes h + 1 = str_bytes (h ++ L "@")) by (rewrite str_bytes_app; reflexivity).
  rewrite Hb, (app_assoc h (L "@") rest). erewrite bind_eq by apply bytes_at. erewrite bind_eq by reflexivity.
  erewrite (bind_eq _ _ _ (starts_with (L "??_R4@") rest) (at_ r [] [] [])).
  2:{ rewrite eat_str_eq by reflexivity. change (tx (at_ rest [] [] [])) with rest. revert Hr. unfold starts_with.
      destruct (strip_prefix (L "??_R4@") rest) as [r'|] eqn:Hs; cbn [opt]; intros Hr.
      - apply strip_prefix_spec in Hs. rewrite Hs in Hr. apply app_inv_head in Hr. subst. reflexivity.
      - cbn [app] in Hr. subst. reflexivity. }
  set (R := starts_with (L "??_R4@") rest) in *.
  assert (Hsplit : split_bytes (str_bytes h + 3 + (if R then 6 else 0) + 1) (L "??@" ++ (h ++ L "@") ++ rest) =
                   Some (md5_name h rest, r)).
  { apply split_bytes_spec. unfold md5_name. fold R. split.
    - rewrite Hr at 1. rewrite <- !app_assoc. reflexivity.
    - rewrite !str_bytes_app. destruct R; cbn [opt]; cbn; lia. }
  rewrite Hsplit. unfold synthesize_from_name, synthesize_from_id.
  erewrite bind_eq.
  2:{ erewrite bind_eq by (apply intern_at; cbn; lia). erewrite bind_eq by (apply intern_at; cbn; lia). apply intern_at; cbn; lia. }
  cbn [app length]. apply intern_at; cbn; lia.
Qed.

Lemma output_md5 E h rest c : 
  output E [NNamed None (md5_name h rest); NNodes [0]; NQual 1; NMd5 2] KSym 3 (mkBuf [] c) =
  w_str E (md5_name h rest) (mkBuf [] c).
Proof.
  unfold output. cbn -[w_str md5_name utf8].
  unfold out_tp. cbn -[w_str md5_name utf8]. unfold w_seq, put. 
  destruct (w_str E (md5_name h rest) (mkBuf [] c)) as [b [[]|e| |]]; reflexivity.
Qed.

Lemma ustr_name h rest : ustr h -> ustr (md5_name h rest).
Proof.
  intros H. unfold md5_name. repeat (apply Forall_app; split); try exact H; try (repeat constructor).
  destruct (starts_with _ _); repeat constructor.
Qed.

(** Under every flag word the result is the text up to and including the second ['@'] (and the
    locator suffix); the flags and the remaining text do not matter.  Only the output limit
    can stand in the way. *)
Theorem md5_passed_through : forall E h rest, ustr h -> ~ In (ch "@") h ->
  demangle E (L "??@" ++ h ++ L "@" ++ rest) =
  if (N.of_nat (length (utf8 (md5_name h rest))) <? out_limit)%N then Ok (md5_name h rest) else Err (Io OutOfMemory).
Proof.
  intros E h rest Hu Hh. unfold demangle, demangle_with, demangle_into_with, parse, parse_with.
  cbn [knot_of k_parse].
  change (do_parse ?E ?K (init_st (L "??@" ++ ?s))) with (demangle_md5_name E (init_st (L "??@" ++ s))).
  destruct (parse_md5 (code_limits E) h rest Hh ltac:(discriminate)) as [t ->].
  cbn [s_store at_]. change (clear (mkBuf [] 0)) with (mkBuf [] 0). rewrite output_md5.
  pose proof (ustr_name h rest Hu) as Hun. destruct (md5_name h rest) as [|c0 s0] eqn:Hm; [discriminate|]. rewrite <- Hm in *.
  assert (Hw : exists cap ob, w_str (code_limits E) (md5_name h rest) (mkBuf [] 0) =
    if (N.of_nat (length (utf8 (md5_name h rest))) <? out_limit)%N
    then (mkBuf (utf8 (md5_name h rest)) cap, Ok tt)
    else (ob, Err (Io OutOfMemory))).
  { rewrite Hm. eexists. eexists. reflexivity. }
  destruct Hw as (cap & ob & Hw). rewrite Hw. destruct (_ <? _)%N; [|reflexivity].
  cbn [b_bytes]. rewrite from_utf8_utf8 by exact Hun. cbn [b_bytes]. rewrite from_utf8_utf8 by exact Hun. reflexivity.
Qed.
Print Assumptions md5_passed_through.

(** Without a second ['@'] the name is not accepted. *)
Theorem md5_unterminated : forall E h, ~ In (ch "@") h -> demangle E (L "??@" ++ h) = Err InvalidMd5Name.
Proof.
  intros E h Hh. unfold demangle, demangle_with, demangle_into_with, parse, parse_with. cbn [knot_of k_parse].
  change (do_parse ?E ?K (init_st (L "??@" ++ ?s))) with (demangle_md5_name E (init_st (L "??@" ++ s))).
  assert (H : demangle_md5_name (code_limits E) (init_st (L "??@" ++ h)) = Err InvalidMd5Name).
  { unfold demangle_md5_name. change (init_st ?x) with (at_ x [] [] []).
    erewrite bind_eq by apply text_at. erewrite bind_eq by apply expects_yes. erewrite bind_eq by apply text_at.
    rewrite find_char_none by exact Hh. reflexivity. }
  rewrite H. reflexivity.
Qed.
Print Assumptions md5_unterminated.

(** The hypotheses are met, with and without the suffix. *)
Example md5_example :
  demangle (env_of 0) (L "??@0123456789abcdef@??_R4@tail") = Ok (L "??@0123456789abcdef@??_R4@") /\
  demangle (env_of NAME_ONLY) (L "??@0123456789abcdef@tail") = Ok (L "??@0123456789abcdef@").
Proof.
  split.
  - apply (md5_passed_through _ (L "0123456789abcdef") (L "??_R4@tail")); [repeat constructor|].
    vm_compute. intuition discriminate.
  - apply (md5_passed_through _ (L "0123456789abcdef") (L "tail")); [repeat constructor|].
    vm_compute. intuition discriminate.
Qed.
