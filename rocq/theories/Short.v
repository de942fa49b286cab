(** C34: texts of at most 1638 characters are never too complex; every character is worth at
    most five quarters of a node. *)
From Verif Require Import Parser Api Lex Limits Cost.

(** C34 (every budget).  A call is rejected for complexity only when the text is longer than
    four fifths of the node budget. *)
Theorem malicious_is_long : forall (E : env) (s : str), demangle_with E s = Err MaliciousInput -> (4 * e_nodes E < 5 * N.of_nat (length s))%N.
Proof.
  intros E s H. destruct (N.lt_ge_cases (4 * e_nodes E) (5 * N.of_nat (length s))) as [Hl|Hl]; [exact Hl|exfalso].
  pose proof (parse_cost E (S (length s)) s Hl) as Hc. unfold demangle_with, demangle_into_with in H. fold (parse E s) in Hc.
  destruct (parse E s) as [[h st]|[]| |]; try discriminate H; [|exact Hc].
  pose proof (output_nodes E 0 (s_store st) KSym h (clear (mkBuf [] 0))) as [_ Ho].
  destruct (output E (s_store st) KSym h (clear (mkBuf [] 0))) as [b [[]|e| |]]; cbn [snd] in Ho; try discriminate H; [|congruence].
  destruct (from_utf8 (b_bytes b)) eqn:Hb; [rewrite Hb in H|]; discriminate H.
Qed.
Print Assumptions malicious_is_long.

(** C34 (the code's budget). *)
Theorem short_never_malicious : forall (E : env) (s : str), length s <= 1638 -> demangle E s <> Err MaliciousInput.
Proof.
  intros E s Hl H. apply malicious_is_long in H. cbn [e_nodes code_limits] in H. change max_nodes with 2048%N in H. lia.
Qed.
Print Assumptions short_never_malicious.

(** C34 (nodes).  An accepted text builds fewer than five quarters of a node for every
    character it reads, whatever the budget. *)
Theorem nodes_per_character : forall (E : env) (s : str) (h : handle) (st : st), parse E s = Ok (h, st) ->
  4 * length (s_store st) + 5 * length (ms_str (s_ms st)) < 5 * length s.
Proof.
  intros E s h st Hp. destruct (parse_nodes E s) as (k & r & _ & Hr & Hk).
  assert (HE : with_nodes E (e_nodes E) = E) by (destruct E; reflexivity).
  pose proof (Hk (e_nodes E)) as H1. rewrite HE, Hp in H1. destruct (N.leb_spec k (e_nodes E)) as [Hle|]; [|discriminate].
  pose proof (Hk (N.max (e_nodes E) (2 * N.of_nat (length s)))) as H2. destruct (N.leb_spec k (N.max (e_nodes E) (2 * N.of_nat (length s)))) as [|Hgt]; [|lia].
  rewrite <- H1 in H2. pose proof (parse_cost (with_nodes E (N.max (e_nodes E) (2 * N.of_nat (length s)))) (S (length s)) s) as Hc.
  cbn [e_nodes with_nodes] in Hc. specialize (Hc ltac:(lia)). fold (parse (with_nodes E (N.max (e_nodes E) (2 * N.of_nat (length s)))) s) in Hc.
  rewrite H2 in Hc. exact Hc.
Qed.
Print Assumptions nodes_per_character.

(** The figure is nearly exact: a text of 1729 characters that is one node too complex, and the
    same text with one parameter less, which is accepted. *)
Definition dense (n : nat) : str := L "?f@@YAX" ++ concat (repeat (L "V?$a@Vb@@Vc@@Vd@@Ve@@Vf@@Vg@@Vh@@Vi@@Vj@@@@") n) ++ L "@Z".
Example dense_case : length (dense 40) = 1729 /\ demangle (env_of 0) (dense 40) = Err MaliciousInput /\
  length (dense 39) = 1686 /\ (match demangle (env_of 0) (dense 39) with Ok x => length x | _ => 0 end) = 3524 /\
  (match parse (code_limits (env_of 0)) (dense 39) with Ok (_, st) => length (s_store st) | _ => 0 end) = 1998.
Proof. vm_compute. repeat split. Qed.
