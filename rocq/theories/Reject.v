(** C10: inputs that are not symbols. *)
From Verif Require Import Api Lex.

(** C10.  Any input that starts with neither ['?'] nor ['.'] is rejected with
    [Io UnexpectedEof], under every flag word. *)
Theorem not_a_symbol_rejected : forall (E : env) (s : str),
  (forall r, s <> ch "?" :: r) -> (forall r, s <> ch "." :: r) ->
  demangle E s = Err (Io UnexpectedEof).
Proof.
  intros E s Hq Hd. unfold demangle, demangle_with, demangle_into_with, parse, parse_with.
  assert (Hp : k_parse (knot_of (code_limits E) (S (length s))) (init_st s) = Err (Io UnexpectedEof)).
  { cbn [knot_of k_parse]. unfold do_parse, bind, text. change (ms_str (s_ms (init_st s))) with s.
    assert (H1 : starts_with (L ".") s = false).
    { unfold starts_with. destruct (strip_prefix (L ".") s) as [r|] eqn:Hs; [|reflexivity].
      apply strip_prefix_spec in Hs. exfalso. exact (Hd r Hs). }
    assert (H2 : starts_with (L "??@") s = false).
    { unfold starts_with. destruct (strip_prefix (L "??@") s) as [r|] eqn:Hs; [|reflexivity].
      apply strip_prefix_spec in Hs. exfalso. exact (Hq _ Hs). }
    rewrite H1, H2. unfold expect_char, bind. rewrite eat_char_eq by reflexivity.
    change (tx (init_st s)) with s. destruct s as [|c r]; [reflexivity|].
    destruct (N.eqb_spec c (ch "?")) as [->|Hne]; [exfalso; exact (Hq r eq_refl)|reflexivity]. }
  rewrite Hp. reflexivity.
Qed.
Print Assumptions not_a_symbol_rejected.

(** The hypotheses are met, for instance, by a C identifier and by the empty string. *)
Example not_a_symbol_example : demangle (env_of 0) (L "main") = Err (Io UnexpectedEof).
Proof. apply not_a_symbol_rejected; intros r; discriminate. Qed.
