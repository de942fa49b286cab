(** How many nodes a text can cost: a potential-function pass over every parser function.
    A character pays 5, a node costs 4.  Proof infrastructure for [Short]. *)
From Verif Require Import Parser Lex Limits.

Definition pot (s : st) : nat := 4 * length (s_store s) + 5 * length (ms_str (s_ms s)).

Create HintDb cost.
Section Cost.
  Variable E : env.
  Variable B : nat.
  Hypothesis HB : (N.of_nat B <= 4 * e_nodes E)%N.

  (** The budget is not exceeded and, on success, [Q]. *)
  Definition cw {A} (m : M A) (Q : A -> st -> Prop) (s : st) : Prop :=
    match m s with Ok (a, s') => Q a s' | Err MaliciousInput => False | _ => True end.
  (** From any state with [p] to spare, [m] leaves [q]. *)
  Definition co {A} (p q : nat) (m : M A) : Prop := forall s, pot s + p <= B -> cw m (fun _ s' => pot s' + q <= pot s + p) s.

  Lemma c_bind {A C} (m : M A) (f : A -> M C) Q s : cw m (fun a s' => cw (f a) Q s') s -> cw (bind m f) Q s.
  Proof. unfold cw, bind. destruct (m s) as [[a s']|[]| |]; auto. Qed.
  Lemma c_mono {A} (m : M A) (Q R : A -> st -> Prop) s : cw m Q s -> (forall a s', Q a s' -> R a s') -> cw m R s.
  Proof. unfold cw. destruct (m s) as [[a s']|[]| |]; auto. Qed.
  Lemma c_use {A} p q (m : M A) (Q : A -> st -> Prop) s : co p q m -> pot s + p <= B -> (forall a s', pot s' + q <= pot s + p -> Q a s') -> cw m Q s.
  Proof. intros Hm Hs HQ. eapply c_mono; [apply Hm; exact Hs|exact HQ]. Qed.
  Lemma c_ret {A} (a : A) (Q : A -> st -> Prop) s : Q a s -> cw (ret a) Q s.
  Proof. auto. Qed.
  Lemma c_fail {A} e (Q : A -> st -> Prop) s : e <> MaliciousInput -> cw (fail e) Q s.
  Proof. unfold cw, fail. destruct e; congruence || auto. Qed.
  Lemma c_ok_or {A} (o : option A) e (Q : A -> st -> Prop) s : e <> MaliciousInput -> (forall a, o = Some a -> Q a s) -> cw (ok_or o e) Q s.
  Proof. intros He H. destruct o; unfold ok_or; [apply H; reflexivity|apply c_fail; exact He]. Qed.
  Lemma c_text (Q : str -> st -> Prop) s : Q (ms_str (s_ms s)) s -> cw text Q s.
  Proof. auto. Qed.
  Lemma c_get (Q : st -> st -> Prop) s : Q s s -> cw get Q s.
  Proof. auto. Qed.
  Lemma c_len (Q : nat -> st -> Prop) s : (forall n, Q n s) -> cw len_chars Q s.
  Proof. unfold cw, len_chars. auto. Qed.
  Lemma c_res k h (Q : node -> st -> Prop) s : (forall n, Q n s) -> cw (res_ k h) Q s.
  Proof. unfold cw, res_. destruct (resolve _ _ _); auto. Qed.
  Lemma upd_length l h f : length (upd l h f) = length l.
  Proof. revert h. induction l as [|x l IH]; intros [|h]; cbn; auto. Qed.
  Lemma c_modify k h f (Q : unit -> st -> Prop) s : (forall s', pot s' <= pot s -> Q tt s') -> cw (modify k h f) Q s.
  Proof.
    unfold cw, modify. destruct (resolve _ _ _); auto. intros H. apply H. unfold pot, set_store. cbn [s_store s_ms]. rewrite upd_length. lia.
  Qed.
  Lemma c_intern n (Q : handle -> st -> Prop) s : pot s + 4 <= B -> (forall h s', pot s' <= pot s + 4 -> Q h s') -> cw (intern E n) Q s.
  Proof.
    intros Hs H. unfold cw, intern. destruct (N.ltb_spec (e_nodes E) (N.of_nat (length (s_store s) + 1))) as [Hl|Hl].
    - unfold pot in Hs. lia.
    - apply H. unfold pot, set_store. cbn [s_store s_ms]. rewrite app_length. cbn [length]. lia.
  Qed.
  (** Anything that only changes the tables. *)
  Lemma c_tables {A} (m : M A) (Q : A -> st -> Prop) s : (forall s, match m s with Ok (_, s') => pot s' = pot s | Err MaliciousInput => False | _ => True end) ->
    (forall a s', pot s' <= pot s -> Q a s') -> cw m Q s.
  Proof. intros H HQ. unfold cw. specialize (H s). destruct (m s) as [[a s']|[]| |]; auto. apply HQ. lia. Qed.

  (** ** Consuming *)
  Lemma c_lift {A} (f : mstring -> mres A) (Q : option A -> st -> Prop) s :
    (match f (s_ms s) with Ok (o, m') => forall s', pot s' + 5 * length (ms_str (s_ms s)) = pot s + 5 * length (ms_str m') -> Q o s' | Err MaliciousInput => False | _ => True end) -> cw (lift f) Q s.
  Proof.
    unfold cw, lift. destruct (f (s_ms s)) as [[o m']|[]| |]; auto. intros H. apply H. unfold pot, set_ms. cbn [s_store s_ms]. lia.
  Qed.
  Lemma c_next e (Q : N -> st -> Prop) s : e <> MaliciousInput -> (forall c s', pot s' + 5 <= pot s -> Q c s') -> cw (next_char e) Q s.
  Proof.
    intros He H. unfold next_char. apply c_bind. apply c_lift. unfold try_consume. destruct (ms_str (s_ms s)) as [|c r] eqn:Et.
    - intros s' _. apply c_ok_or; [exact He|discriminate].
    - unfold ms_drop. destruct (_ <=? _); [|exact I]. intros s' Hp. cbn [ms_str length] in Hp. rewrite ?Et in Hp. cbn [length] in Hp. apply c_ret. apply H. lia.
  Qed.
  Lemma c_eatif f (Q : option N -> st -> Prop) s : (forall c s', pot s' + 5 <= pot s -> Q (Some c) s') -> (forall s', pot s' <= pot s -> Q None s') -> cw (eat_if f) Q s.
  Proof.
    intros H1 H2. unfold eat_if. apply c_lift. unfold try_consume_char_if. destruct (ms_str (s_ms s)) as [|c r] eqn:Et.
    - rewrite Et. intros s' Hp. apply H2. lia.
    - destruct (f c); [|rewrite Et; intros s' Hp; apply H2; lia].
      unfold ms_drop. destruct (_ <=? _); [|exact I]. intros s' Hp. cbn [ms_str length] in Hp. apply H1. lia.
  Qed.
  Lemma c_eat c (Q : bool -> st -> Prop) s : (forall s', pot s' + 5 <= pot s -> Q true s') -> (forall s', pot s' <= pot s -> Q false s') -> cw (eat_char c) Q s.
  Proof.
    intros H1 H2. unfold eat_char. apply c_bind. change (lift (try_consume_char c)) with (eat_if (fun x => (x =? c)%N)). apply c_eatif; intros; apply c_ret; auto.
  Qed.
  Lemma strip_length p t r : strip_prefix p t = Some r -> length t = length p + length r.
  Proof.
    revert t. induction p as [|x p IH]; intros t H; cbn in *; [injection H as <-; reflexivity|]. destruct t as [|y t]; [discriminate|].
    destruct (_ =? _)%N; [|discriminate]. cbn. rewrite (IH _ H). reflexivity.
  Qed.
  Lemma c_eats p (Q : bool -> st -> Prop) s : (forall s', pot s' + 5 * length p <= pot s -> Q true s') -> (forall s', pot s' <= pot s -> Q false s') -> cw (eat_str p) Q s.
  Proof.
    intros H1 H2. unfold eat_str. apply c_bind. apply c_lift. unfold try_consume_str. destruct (strip_prefix p _) as [r|] eqn:Et.
    - apply strip_length in Et. unfold ms_drop. destruct (_ <=? _); [|exact I]. intros s' Hp. cbn [ms_str] in Hp. apply c_ret. apply H1. lia.
    - intros s' Hp. apply c_ret. apply H2. lia.
  Qed.
  Lemma c_expect c e (Q : unit -> st -> Prop) s : e <> MaliciousInput -> (forall s', pot s' + 5 <= pot s -> Q tt s') -> cw (expect_char c e) Q s.
  Proof. intros He H. unfold expect_char. apply c_bind. apply c_eat; intros s' Hs; [apply c_ret; auto|apply c_fail; exact He]. Qed.
  Lemma c_expects p e (Q : unit -> st -> Prop) s : e <> MaliciousInput -> (forall s', pot s' + 5 * length p <= pot s -> Q tt s') -> cw (expect_str p e) Q s.
  Proof. intros He H. unfold expect_str. apply c_bind. apply c_eats; intros s' Hs; [apply c_ret; auto|apply c_fail; exact He]. Qed.
  Lemma c_first l n (Q : option str -> st -> Prop) s : Forall (fun p => n <= length p) l ->
    (forall p s', In p l -> pot s' + 5 * n <= pot s -> Q (Some p) s') -> (forall s', pot s' <= pot s -> Q None s') -> cw (eat_first l) Q s.
  Proof.
    revert s. induction l as [|p l IH]; intros s Hl H1 H2; cbn [eat_first]; [apply c_ret; apply H2; lia|].
    inversion Hl; subst. apply c_bind. apply c_eats; intros s' Hs.
    - apply c_ret. apply H1; [left; reflexivity|]. lia.
    - apply IH; [assumption| |].
      + intros q s2 Hq Hs2. apply H1; [right; exact Hq|lia].
      + intros s2 Hs2. apply H2. lia.
  Qed.
  Lemma c_special (Q : option sik -> st -> Prop) s :
    (forall k s', pot s' + 15 <= pot s -> Q (Some k) s') -> (forall s', pot s' <= pot s -> Q None s') -> cw (consume_special special_table) Q s.
  Proof.
    intros H1 H2. assert (Hl : Forall (fun p => 3 <= length (fst p)) special_table) by (repeat constructor).
    revert s H1 H2 Hl. generalize special_table as l. induction l as [|[p k] l IH]; intros s H1 H2 Hl; cbn [consume_special]; [apply c_ret; apply H2; lia|].
    inversion Hl; subst. cbn [fst] in *. apply c_bind. apply c_eats; intros s' Hs.
    - apply c_ret. apply H1. lia.
    - apply IH; [| |assumption].
      + intros q s2 Hs2. apply H1. lia.
      + intros s2 Hs2. apply H2. lia.
  Qed.
  Lemma split_length n t a b : split_bytes n t = Some (a, b) -> length t = length a + length b.
  Proof.
    revert n a. induction t as [|c t IH]; intros n a H; destruct n; cbn in H; try (injection H as <- <-; reflexivity); try discriminate.
    destruct (utf8_len c); [|destruct (_ <=? _); [|discriminate]]; (destruct (split_bytes _ t) as [[x y]|] eqn:Es; [|discriminate]); injection H as <- <-; cbn; rewrite (IH _ _ Es); reflexivity.
  Qed.
  Lemma c_bytes n (Q : option str -> st -> Prop) s :
    (forall a s', pot s' + 5 * length a <= pot s -> (0 < n -> 0 < length a) -> Q (Some a) s') -> (forall s', pot s' <= pot s -> Q None s') -> cw (lift (try_consume_n_bytes n)) Q s.
  Proof.
    intros H1 H2. apply c_lift. unfold try_consume_n_bytes. destruct (split_bytes n _) as [[a b]|] eqn:Et.
    - pose proof (split_length _ _ _ _ Et) as Hl. unfold ms_drop. destruct (_ <=? _); [|exact I]. intros s' Hp. cbn [ms_str] in Hp. apply H1; [lia|].
      intros Hn. destruct n; [lia|]. destruct (ms_str (s_ms s)) as [|c r]; [discriminate|]. cbn in Et.
      destruct (utf8_len c); [|destruct (_ <=? _); [|discriminate]]; (destruct (split_bytes _ r) as [[x y]|]; [|discriminate]); injection Et as <- <-; cbn; lia.
    - intros s' Hp. apply H2. lia.
  Qed.
  Lemma c_2 (Q : option (N * N) -> st -> Prop) s : (forall o s', pot s' <= pot s -> Q o s') -> cw (lift try_consume_2_chars) Q s.
  Proof.
    intros H. apply c_lift. unfold try_consume_2_chars. destruct (ms_str (s_ms s)) as [|c [|d r]] eqn:Et.
    - rewrite Et. intros s' Hp. apply H. lia.
    - rewrite Et. intros s' Hp. apply H. lia.
    - unfold ms_drop. destruct (_ <=? _); [|exact I]. intros s' Hp. cbn [ms_str length] in Hp. apply H. lia.
  Qed.

  (** ** Writers *)
  Definition quiet_w (w : W) : Prop := forall b, snd (w b) <> Err MaliciousInput.
  Lemma q_str t : quiet_w (w_str E t).
  Proof.
    intros b. unfold w_str. cbv zeta. repeat match goal with |- context [if ?c then _ else _] => destruct c end; cbn [snd]; intros H; discriminate H.
  Qed.
  Lemma q_seq v w : quiet_w v -> quiet_w w -> quiet_w (v >> w).
  Proof. intros Hv Hw b. unfold w_seq. specialize (Hv b). destruct (v b) as [b1 [[]|e| |]]; cbn in *; auto; intros X; discriminate X. Qed.
  Lemma q_if b w : quiet_w w -> quiet_w (w_if b w).
  Proof. intros H x. unfold w_if. destruct b; [apply H|discriminate]. Qed.
  Lemma q_output sg k h : quiet_w (output E sg k h).
  Proof. intros b. apply (output_nodes E 0 sg k h b). Qed.
  Lemma c_run w b (Q : buf -> st -> Prop) s : quiet_w w -> (forall b', Q b' s) -> cw (run_w w b) Q s.
  Proof. intros Hw H. unfold cw, run_w. specialize (Hw b). destruct (w b) as [b' [[]|[]| |]]; cbn in *; auto. Qed.
  Lemma c_render w (Q : str -> st -> Prop) s : (forall sg, quiet_w (w sg)) -> (forall x, Q x s) -> cw (render w) Q s.
  Proof. intros Hw H. unfold render. apply c_bind, c_get. apply c_bind, c_run; [apply Hw|]. intros b. unfold take_text. apply c_ok_or; [discriminate|]. auto. Qed.

  (** ** Functions *)
  Ltac lens H := repeat match type of H with context [length ?l] => let n := eval vm_compute in (length l) in change (length l) with n in H end.
  Ltac cstep :=
    match goal with
    | |- cw (bind _ _) _ _ => apply c_bind
    | |- cw (ret _) _ _ => apply c_ret
    | |- cw (fail _) _ _ => exact I
    | |- cw panic _ _ => exact I
    | |- cw nofuel _ _ => exact I
    | |- cw text _ _ => apply c_text
    | |- cw get _ _ => apply c_get
    | |- cw len_chars _ _ => apply c_len; intros ?
    | |- cw (res_ _ _) _ _ => apply c_res; intros ?
    | |- cw (modify _ _ _) _ _ => apply c_modify; intros ? ?
    | |- cw (intern _ _) _ _ => apply c_intern; [lia|intros ? ? ?]
    | |- cw (next_char _) _ _ => apply c_next; [discriminate|intros ? ? ?]
    | |- cw (eat_char _) _ _ => apply c_eat; intros ? ?
    | |- cw (eat_str _) _ _ => let H := fresh in apply c_eats; intros ? H; try (lens H)
    | |- cw (expect_char _ _) _ _ => apply c_expect; [discriminate|intros ? ?]
    | |- cw (expect_str _ _) _ _ => let H := fresh in apply c_expects; [discriminate|intros ? H; lens H]
    | |- cw (eat_if _) _ _ => apply c_eatif; [intros ? ? ?|intros ? ?]
    | |- cw (ok_or _ _) _ _ => let H := fresh in apply c_ok_or; [discriminate|intros ? H]
    | |- cw (lift (try_consume_n_bytes _)) _ _ => apply c_bytes; [intros ? ? ? ?|intros ? ?]
    | |- cw (lift try_consume_2_chars) _ _ => apply c_2; intros ? ? ?
    | |- cw (render _) _ _ => apply c_render; [intros ?; repeat (apply q_seq); solve [apply q_str|apply q_output]|intros ?]
    | |- cw (run_w _ _) _ _ => apply c_run; [repeat first [apply q_if|apply q_str]|intros ?]
    | |- cw (let x := _ in _) _ _ => cbv zeta
    | |- cw (if ?b then _ else _) _ _ => destruct b
    | |- cw (match ?x with _ => _ end) _ _ => destruct x
    | |- cw _ _ _ => eapply c_use; [solve [eauto 3 with cost]|lia|intros ? ? ?]
    | |- pot _ + _ <= pot _ + _ => lia
    | |- True => exact I
    end; cbv beta iota.
  Ltac cst := intros ? ?; repeat cstep.

  Lemma co_ext : co 0 0 pointer_ext_qualifiers.
  Proof. unfold pointer_ext_qualifiers. cst. Qed.
  Lemma co_loop fuel c n : co 0 0 (number_loop fuel c n).
  Proof. revert c n. induction fuel as [|fuel IH]; intros c n; [intros ? ?; exact I|]. cbn [number_loop]. cst. Qed.
  Hint Resolve co_ext co_loop : cost.
  Lemma co_number : co 0 5 demangle_number.
  Proof. unfold demangle_number. cst. Qed.
  Hint Resolve co_number : cost.
  Lemma co_unsigned : co 0 5 demangle_unsigned.
  Proof. unfold demangle_unsigned. cst. Qed.
  Lemma co_signed : co 0 5 demangle_signed.
  Proof. unfold demangle_signed. cst. Qed.
  Lemma co_quals : co 0 5 demangle_qualifiers.
  Proof. unfold demangle_qualifiers. cst. Qed.
  Lemma co_cv : co 0 5 demangle_pointer_cv_qualifiers.
  Proof. unfold demangle_pointer_cv_qualifiers. cst. Qed.
  Lemma co_ref : co 0 0 demangle_function_ref_qualifier.
  Proof. unfold demangle_function_ref_qualifier. cst. Qed.
  Lemma co_cc : co 0 5 demangle_calling_convention.
  Proof. unfold demangle_calling_convention. cst. Qed.
  Lemma co_sc : co 0 5 demangle_variable_storage_class.
  Proof. unfold demangle_variable_storage_class. cst. Qed.
  Lemma co_throw : co 0 5 demangle_throw_specification.
  Proof. unfold demangle_throw_specification. cst. Qed.
  Lemma co_class : co 0 5 demangle_function_class.
  Proof. unfold demangle_function_class. cst. Qed.
  Lemma co_u32 n : co 0 0 (to_u32 n InvalidLocalStaticGuard).
  Proof. unfold to_u32. cst. Qed.
  Lemma co_u32' n : co 0 0 (to_u32 n InvalidRttiBaseClassDescriptorNode).
  Proof. unfold to_u32. cst. Qed.
  Lemma co_i32 n : co 0 0 (to_i32 n InvalidRttiBaseClassDescriptorNode).
  Proof. unfold to_i32. cst. Qed.
  Lemma co_prim : co 0 1 (demangle_primitive_type E).
  Proof. unfold demangle_primitive_type, demangle_primitive_kind. cst. Qed.
  Lemma co_char : co 0 5 demangle_char_literal.
  Proof. unfold demangle_char_literal. cst. Qed.
  Hint Resolve co_unsigned co_signed co_quals co_cv co_ref co_cc co_sc co_throw co_class co_u32 co_u32' co_i32 co_prim co_char : cost.
  Lemma co_wchar : co 0 5 demangle_wchar_literal.
  Proof. unfold demangle_wchar_literal. cst. Qed.
  Hint Resolve co_wchar : cost.
  Lemma co_uid qn : co 0 0 (unqualified_identifier qn).
  Proof. unfold unqualified_identifier. cst. Qed.
  Lemma co_syn_id id : co 8 0 (synthesize_from_id E id).
  Proof. unfold synthesize_from_id. cst. Qed.
  Hint Resolve co_uid co_syn_id : cost.
  Lemma co_syn n : co 12 0 (synthesize_from_name E n).
  Proof. unfold synthesize_from_name. cst. Qed.
  Hint Resolve co_syn : cost.
  Lemma co_names l : co 0 0 (resolve_names l).
  Proof. induction l as [|h l IH]; cbn [resolve_names]; cst. Qed.
  Hint Resolve co_names : cost.
  Lemma co_mem x : co 4 0 (memorize_string E x).
  Proof.
    unfold memorize_string. cst. apply c_tables; [intros s1; destruct s1; reflexivity|]. intros. lia.
  Qed.
  Hint Resolve co_mem : cost.
  Lemma co_memid h : co 4 0 (memorize_identifier E h).
  Proof. unfold memorize_identifier. cst. Qed.
  Hint Resolve co_memid : cost.

  Section Knot.
    Variable K : knot.
    Hypothesis Hparse : co 0 1 (k_parse K).
    Hypothesis Htype : forall m, co 0 0 (k_type K m).
    Hypothesis Htinst : forall b, co 0 9 (k_tinst K b).

    Lemma co_string (m : bool) : co 0 (if m then 6 else 10) (demangle_simple_string E m).
    Proof.
      unfold demangle_simple_string. intros s Hs. do 4 cstep. destruct (Nat.eqb_spec a 0); [exact I|].
      assert (0 < a) by lia. destruct m; repeat cstep; try discriminate; match goal with H : 0 < a -> _ |- _ => specialize (H ltac:(assumption)) end; try lia.
    Qed.
    Hint Resolve co_string : cost.
    Lemma co_sname m : co 0 2 (demangle_simple_name E m).
    Proof. unfold demangle_simple_name. intros s Hs. cstep. eapply c_use; [apply co_string|lia|]. intros. destruct m; repeat cstep. Qed.
    Lemma co_backref : co 0 5 demangle_back_ref_name.
    Proof. unfold demangle_back_ref_name. cst; try discriminate. Qed.
    Lemma co_anon : co 0 2 (demangle_anonymous_namespace_name E).
    Proof. unfold demangle_anonymous_namespace_name. cst; try discriminate. Qed.
    Lemma co_local : co 0 2 (demangle_locally_scoped_name_piece E K).
    Proof. unfold demangle_locally_scoped_name_piece. cst. Qed.
    Hint Resolve co_sname co_backref co_anon co_local : cost.
    Lemma co_piece : co 0 2 (demangle_name_scope_piece E K).
    Proof. unfold demangle_name_scope_piece. cst. Qed.
    Hint Resolve co_piece : cost.
    Lemma co_scopes fuel acc : co 0 5 (scope_loop E K fuel acc).
    Proof. revert acc. induction fuel as [|fuel IH]; intros acc; [intros ? ?; exact I|]. cbn [scope_loop]. cst. Qed.
    Hint Resolve co_scopes : cost.
    Lemma co_chain id : co 3 0 (demangle_name_scope_chain E K id).
    Proof. unfold demangle_name_scope_chain. cst. Qed.
    Hint Resolve co_chain : cost.
    Lemma co_intrinsic c g : co 0 0 (translate_intrinsic c g).
    Proof. unfold translate_intrinsic. cst. Qed.
    Hint Resolve co_intrinsic : cost.
    Lemma co_group g : co 0 1 (demangle_function_identifier_code_group E g).
    Proof. unfold demangle_function_identifier_code_group. cst. Qed.
    Hint Resolve co_group : cost.
    Lemma co_code : co 0 2 (demangle_function_identifier_code E).
    Proof. unfold demangle_function_identifier_code. cst. Qed.
    Hint Resolve co_code : cost.
    Lemma co_utn m : co 0 2 (demangle_unqualified_type_name E K m).
    Proof. unfold demangle_unqualified_type_name. cst. Qed.
    Lemma co_usn b : co 0 2 (demangle_unqualified_symbol_name E K b).
    Proof. unfold demangle_unqualified_symbol_name. cst. Qed.
    Hint Resolve co_utn co_usn : cost.
    Lemma co_fqtn : co 1 0 (demangle_fully_qualified_type_name E K).
    Proof. unfold demangle_fully_qualified_type_name. cst. Qed.
    Lemma co_fqsn : co 1 0 (demangle_fully_qualified_symbol_name E K).
    Proof. unfold demangle_fully_qualified_symbol_name. cst. Qed.
    Hint Resolve co_fqtn co_fqsn : cost.
    Lemma co_custom : co 0 0 (demangle_custom_type E K).
    Proof. unfold demangle_custom_type. cst. Qed.
    Lemma co_tag : co 0 0 (demangle_class_type E K).
    Proof. unfold demangle_class_type. cst. Qed.
    Lemma co_params fuel acc : co 0 0 (params_loop K fuel acc).
    Proof.
      revert acc. induction fuel as [|fuel IH]; intros acc; [intros ? ?; exact I|]. cbn [params_loop]. cst.
      apply c_tables; [intros s1; destruct (length (s_fps s1) <? 10); destruct s1; reflexivity|]. intros. repeat cstep.
    Qed.
    Hint Resolve co_custom co_tag co_params : cost.
    Lemma co_plist : co 4 5 (demangle_function_parameter_list E K).
    Proof. unfold demangle_function_parameter_list. cst. Qed.
    Hint Resolve co_plist : cost.
    Lemma co_fn b : co 0 2 (demangle_function_type E K b).
    Proof. unfold demangle_function_type. cst. Qed.
    Hint Resolve co_fn : cost.
    Lemma co_ptr : co 0 0 (demangle_pointer_type E K).
    Proof. unfold demangle_pointer_type. cst. Qed.
    Lemma co_mptr : co 0 0 (demangle_member_pointer_type E K).
    Proof. unfold demangle_member_pointer_type. cst. Qed.
    Lemma co_dims fuel r acc : co 0 0 (dims_loop E fuel r acc).
    Proof. revert r acc. induction fuel as [|fuel IH]; intros r acc; cbn [dims_loop]; cst. Qed.
    Hint Resolve co_ptr co_mptr co_dims : cost.
    Lemma co_arr : co 0 0 (demangle_array_type E K).
    Proof. unfold demangle_array_type. cst. Qed.
    Hint Resolve co_arr : cost.
    Lemma co_type m : co 0 0 (demangle_type E K m).
    Proof. unfold demangle_type. cst. Qed.
    Lemma co_offsets n : co 0 0 (read_offsets n).
    Proof. induction n as [|n IH]; cbn [read_offsets]; cst. Qed.
    Lemma co_tsym : co 3 0 (template_symbol E K).
    Proof. unfold template_symbol. cst. Qed.
    Hint Resolve co_offsets co_tsym : cost.

    Lemma co_arg : co 0 0 (template_arg E K).
    Proof.
      unfold template_arg.
      assert (Hf : forall l n (Q : option str -> st -> Prop) s, Forall (fun p => n <= length p) l ->
        (forall p s', pot s' + 5 * n <= pot s -> Q (Some p) s') -> (forall s', pot s' <= pot s -> Q None s') -> cw (eat_first l) Q s).
      { intros. eapply c_first; eauto. }
      intros s Hs. cstep. apply c_eats; intros s1 H1; lens H1.
      - repeat cstep. apply (Hf _ 1); [repeat constructor| |]; intros; repeat cstep.
        apply (Hf _ 1); [repeat constructor| |]; intros; repeat cstep; lens H; lia.
      - repeat cstep. apply (Hf _ 2); [repeat constructor| |]; intros; repeat cstep.
        apply (Hf _ 2); [repeat constructor| |]; intros; repeat cstep; lens H; lia.
    Qed.
    Hint Resolve co_arg : cost.
    Lemma co_args fuel acc : co 0 5 (targs_loop E K fuel acc).
    Proof.
      revert acc. induction fuel as [|fuel IH]; intros acc; [intros ? ?; exact I|]. cbn [targs_loop]. cst.
      eapply (c_first _ 2); [repeat constructor| |]; intros; repeat cstep.
    Qed.
    Hint Resolve co_args : cost.
    Lemma co_alist : co 0 1 (demangle_template_parameter_list E K).
    Proof. unfold demangle_template_parameter_list. cst. Qed.
    Hint Resolve co_alist : cost.
    Lemma co_tinst b : co 0 9 (demangle_template_instantiation_name E K b).
    Proof.
      unfold demangle_template_instantiation_name. cst.
      apply c_tables; [intros s1; destruct s1; reflexivity|]. intros. do 6 cstep.
      cstep. apply c_tables; [intros s1; destruct s1; reflexivity|]. intros. repeat cstep.
    Qed.

    (** ** Symbols *)
    Lemma co_var sc : co 0 0 (demangle_variable_encoding E K sc).
    Proof. unfold demangle_variable_encoding. cst. Qed.
    Lemma co_fenc : co 3 0 (demangle_function_encoding E K).
    Proof. unfold demangle_function_encoding, this_adjust. cst. Qed.
    Hint Resolve co_var co_fenc : cost.
    Lemma co_enc h : co 3 0 (demangle_encoded_symbol E K h).
    Proof. unfold demangle_encoded_symbol. cst. Qed.
    Hint Resolve co_enc : cost.
    Lemma co_decl : co 4 0 (demangle_declarator E K).
    Proof. unfold demangle_declarator. cst. Qed.
    Hint Resolve co_decl : cost.
    Lemma co_stab k : co 7 0 (demangle_special_table_symbol_node E K k).
    Proof. unfold demangle_special_table_symbol_node. cst. Qed.
    Lemma co_guard b : co 7 0 (demangle_local_static_guard E K b).
    Proof. unfold demangle_local_static_guard. cst. Qed.
    Lemma co_untyped n : co 7 0 (demangle_untyped_variable E K n).
    Proof. unfold demangle_untyped_variable. cst. Qed.
    Lemma co_base : co 7 0 (demangle_rtti_base_class_descriptor_node E K).
    Proof. unfold demangle_rtti_base_class_descriptor_node. cst. Qed.
    Lemma co_stub b : co 16 0 (demangle_init_fini_stub E K b).
    Proof. unfold demangle_init_fini_stub. cst. Qed.
    Lemma co_vcall : co 7 0 (demangle_vcall_thunk_node E K).
    Proof. unfold demangle_vcall_thunk_node. cst. Qed.
    Lemma co_wide fuel len tr ob : co 0 0 (wide_loop E fuel len tr ob).
    Proof. revert len ob. induction fuel as [|fuel IH]; intros len ob; cbn [wide_loop]; cst. Qed.
    Lemma co_narrow fuel acc : co 0 0 (narrow_loop fuel acc).
    Proof. revert acc. induction fuel as [|fuel IH]; intros acc; cbn [narrow_loop]; cst. Qed.
    Lemma co_nout l sz num i n tr ob : co 0 0 (narrow_out E l sz num i n tr ob).
    Proof. revert i ob. induction n as [|n IH]; intros i ob; cbn [narrow_out]; cst. Qed.
    Hint Resolve co_stab co_guard co_untyped co_base co_stub co_vcall co_wide co_narrow co_nout : cost.
    Lemma co_strlit : co 0 0 (demangle_string_literal E).
    Proof. unfold demangle_string_literal, take_text. cst; try discriminate. Qed.
    Lemma co_rtd : co 6 0 (rtti_type_descriptor E K).
    Proof. unfold rtti_type_descriptor. cst. Qed.
    Hint Resolve co_strlit co_rtd : cost.
    Lemma co_spec (Q : option handle -> st -> Prop) s : pot s + 5 <= B -> (forall h s', pot s' <= pot s + 4 -> Q (Some h) s') -> (forall s', pot s' <= pot s -> Q None s') -> cw (demangle_special_intrinsic E K) Q s.
    Proof.
      intros Hs HQ HN. unfold demangle_special_intrinsic. cstep. apply c_special; intros.
      - destruct k; repeat cstep; apply HQ; lia.
      - repeat cstep; apply HN; lia.
    Qed.
    Lemma co_md5 : co 0 4 (demangle_md5_name E).
    Proof. unfold demangle_md5_name. cst; try discriminate. Qed.
    Lemma co_typeinfo : co 0 1 (demangle_typeinfo_name E K).
    Proof. unfold demangle_typeinfo_name. cst. Qed.
    Hint Resolve co_md5 co_typeinfo : cost.
    Lemma co_parse : co 0 1 (do_parse E K).
    Proof. 
      unfold do_parse. intros s Hs. do 3 cstep; [repeat cstep|]. cstep; [repeat cstep|]. do 3 cstep.
      apply co_spec; intros; [lia| |]; repeat cstep.
    Qed.
  End Knot.

  Lemma co_knot fuel : co 0 1 (k_parse (knot_of E fuel)) /\ (forall m, co 0 0 (k_type (knot_of E fuel) m)) /\ (forall b, co 0 9 (k_tinst (knot_of E fuel) b)).
  Proof.
    induction fuel as [|fuel (H1 & H2 & H3)]; cbn [knot_of k_parse k_type k_tinst].
    - repeat split; intros; intros ? ?; exact I.
    - split; [apply co_parse; assumption|]. split; intros; [apply co_type; assumption|apply co_tinst; assumption].
  Qed.
End Cost.

(** The whole parser: when the node budget pays for five quarters of the text, the budget is
    never the reason for a rejection; and the nodes of an accepted text are so bounded. *)
Lemma parse_cost E fuel s : (5 * N.of_nat (length s) <= 4 * e_nodes E)%N ->
  match parse_with E fuel s with Ok (_, st) => 4 * length (s_store st) + 5 * length (ms_str (s_ms st)) < 5 * length s | Err MaliciousInput => False | _ => True end.
Proof.
  intros H. pose proof (proj1 (co_knot E (5 * length s) ltac:(lia) fuel) (init_st s)) as Hc.
  unfold pot, init_st in Hc. cbn [s_store s_ms ms_new ms_str length] in Hc. specialize (Hc ltac:(lia)). unfold cw in Hc. unfold parse_with, init_st.
  destruct (k_parse _ _) as [[h st]|[]| |]; auto. lia.
Qed.
