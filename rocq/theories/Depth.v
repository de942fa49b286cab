(** C03: the node budget does not bound the nesting of the parser. *)
From Verif Require Import Api Lex Step Safety.

(** [d] pointers to pointers to ... *)
Fixpoint pointers (d : nat) : str := match d with O => [] | S d => L "PA" ++ pointers d end.
Definition deep (d : nat) : str := L "?x@@3" ++ pointers d.

Lemma pointers_length d : length (pointers d) = 2 * d.
Proof. induction d; cbn [pointers]; [reflexivity|]. rewrite app_length, IHd. cbn. lia. Qed.
Lemma deep_length d : length (deep d) = 5 + 2 * d.
Proof. unfold deep. rewrite app_length, pointers_length. reflexivity. Qed.

Lemma bind_fuel {A B} (m : M A) (f : A -> M B) s : m s = Fuel -> bind m f s = Fuel.
Proof. unfold bind. intros ->. reflexivity. Qed.

(** One level of pointer. *)
Lemma pointer_level E K d sg f n :
  k_type K QMangle (at_ (ch "A" :: pointers d) sg f n) = Fuel ->
  demangle_pointer_type E K (at_ (pointers (S d)) sg f n) = Fuel.
Proof.
  intros H. cbn [pointers]. change (L "PA" ++ pointers d) with (ch "P" :: ch "A" :: pointers d).
  unfold demangle_pointer_type. erewrite bind_eq.
  2:{ unfold demangle_pointer_cv_qualifiers. erewrite bind_eq by (apply eats_no; reflexivity).
      cbv iota. erewrite bind_eq by apply next_at. reflexivity. }
  cbv beta iota.
  erewrite bind_eq by (apply eat_no; reflexivity). cbv iota.
  apply bind_fuel. erewrite bind_eq.
  2:{ unfold pointer_ext_qualifiers. erewrite bind_eq by (apply eat_no; reflexivity).
      erewrite bind_eq by (apply eat_no; reflexivity). erewrite bind_eq by (apply eat_no; reflexivity). reflexivity. }
  apply bind_fuel. exact H.
Qed.
Lemma type_level E K d sg f n :
  k_type K QMangle (at_ (ch "A" :: pointers d) sg f n) = Fuel ->
  demangle_type E K QMangle (at_ (ch "A" :: pointers (S d)) sg f n) = Fuel /\
  demangle_type E K QDrop (at_ (pointers (S d)) sg f n) = Fuel.
Proof.
  intros H. pose proof (pointer_level E K d sg f n H) as Hp. split; unfold demangle_type.
  - erewrite bind_eq.
    2:{ erewrite bind_eq; [|unfold demangle_qualifiers; erewrite bind_eq by apply next_at; reflexivity]. reflexivity. }
    cbv beta. erewrite bind_eq by apply text_at. apply bind_fuel. exact Hp.
  - erewrite bind_eq by reflexivity. erewrite bind_eq by apply text_at. apply bind_fuel. exact Hp.
Qed.
Lemma mangled_level E d : forall j sg f n,
  k_type (knot_of E d) QMangle (at_ (ch "A" :: pointers (d + j)) sg f n) = Fuel.
Proof. induction d as [|d IH]; intros; [reflexivity|]. cbn [knot_of k_type Nat.add]. apply type_level, IH. Qed.

(** No constant suffices: for every depth [d] the input [deep d], of [5 + 2 d] characters, makes
    the parser nest more than [d] calls deep, whatever the flags and with a budget of
    only four nodes (the code has 2048). *)
Theorem nesting_unbounded : forall E d, (4 <= e_nodes E)%N ->
  length (deep d) = 5 + 2 * d /\ parse_with E d (deep d) = Fuel.
Proof.
  intros E d Hn. split; [apply deep_length|]. destruct d as [|d]; [reflexivity|].
  unfold parse_with. cbn [knot_of k_parse]. set (K := knot_of E d).
  unfold do_parse, deep. change (init_st ?x) with (at_ x [] [] []).
  erewrite bind_eq by apply text_at. cbv iota.
  change (starts_with (L ".") (L "?x@@3" ++ pointers (S d))) with false. cbv iota.
  change (starts_with (L "??@") (L "?x@@3" ++ pointers (S d))) with false. cbv iota.
  erewrite bind_eq by apply (expect_yes (ch "?") _ (L "x@@3" ++ pointers (S d))).
  erewrite bind_eq.
  2:{ unfold demangle_special_intrinsic. erewrite (bind_eq _ _ _ None); [reflexivity|].
      unfold special_table. cbn [consume_special]. repeat (erewrite bind_eq by (apply eats_no; reflexivity); cbv iota). reflexivity. }
  cbv iota. unfold demangle_declarator.
  erewrite bind_eq.
  2:{ unfold demangle_fully_qualified_symbol_name. erewrite bind_eq.
      2:{ unfold demangle_unqualified_symbol_name. erewrite bind_eq by apply text_at.
          change (first_is is_digit (L "x@@3" ++ pointers (S d))) with false. cbv iota.
          change (starts_with (L "?$") (L "x@@3" ++ pointers (S d))) with false. cbv iota.
          change (starts_with (L "?") (L "x@@3" ++ pointers (S d))) with false. cbv iota.
          unfold demangle_simple_name. erewrite bind_eq.
          2:{ unfold demangle_simple_string. erewrite bind_eq by apply text_at.
              erewrite bind_eq by reflexivity. cbn [utf8_len N.ltb]. 
              change (utf8_len (N_of_ascii "x") + 0 =? 0) with false. cbv iota.
              erewrite bind_eq by (apply (bytes_at (L "x"))). erewrite bind_eq by reflexivity.
              erewrite bind_eq by apply expect_yes. erewrite bind_eq.
              2:{ cbn [nbb_simple NBB_Simple]. unfold memorize_string. erewrite bind_eq by reflexivity. 
                  change (s_names (at_ _ _ _ _)) with (@nil handle). cbn [length Nat.leb].
                  erewrite bind_eq by reflexivity. cbn [existsb]. erewrite bind_eq by (apply intern_at; cbn; lia). reflexivity. }
              reflexivity. }
          apply (intern_at _ _ (L "@3" ++ pointers (S d)) [NNamed None (L "x")] [] [0]); cbn; lia. }
      erewrite bind_eq.
      2:{ unfold demangle_name_scope_chain. erewrite bind_eq by apply text_at. erewrite bind_eq.
          2:{ cbn [scope_loop]. erewrite bind_eq by apply eat_yes. reflexivity. }
          erewrite bind_eq by (apply intern_at; cbn; lia). apply intern_at; cbn; lia. }
      erewrite bind_eq by reflexivity. reflexivity. }
  apply bind_fuel. unfold demangle_encoded_symbol.
  erewrite bind_eq by apply text_at. erewrite bind_eq by reflexivity. cbv iota.
  change (one_of (L "01234") (N_of_ascii "3")) with true. cbv iota.
  erewrite bind_eq.
  2:{ unfold demangle_variable_storage_class. erewrite bind_eq by apply next_at. reflexivity. }
  unfold demangle_variable_encoding. apply bind_fuel. subst K.
  destruct d as [|d]; [reflexivity|]. cbn [knot_of k_type]. apply type_level. replace (S d) with (d + 1) by lia. apply mangled_level.
Qed.
Print Assumptions nesting_unbounded.


(** Such inputs are real: with enough nesting the parser reaches the end of the text. *)
Example deep_example : demangle (env_of 0) (deep 100) = Err InvalidType /\ length (deep 100) = 205.
Proof. vm_compute. auto. Qed.
