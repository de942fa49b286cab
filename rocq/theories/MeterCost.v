(** How many operations a text can cost: a credit pass over every function of the metered parser.
    A character is worth [KC] credits, an operation costs one.  Proof infrastructure for [Work]. *)
From Verif Require Import Parser Lex Cost Effort Meter.

Definition KC : Z := 160.
Definition worth (s : st) : Z := (KC * Z.of_nat (length (ms_str (s_ms s))))%Z.
(** With [p] credits [m] can pay for its operations, and [q a] are left when it returns [a]. *)
Definition co {A} (p : Z) (m : M A) (q : A -> Z) : Prop := forall s,
  match m s with
  | (Ok (a, s'), c) => (Z.of_nat (ops c) + worth s' + q a <= worth s + p)%Z
  | (_, c) => (Z.of_nat (ops c) <= worth s + p)%Z
  end.

Lemma worth_pos s : (0 <= worth s)%Z.
Proof. unfold worth, KC. lia. Qed.
Lemma co_weak {A} p0 (m : M A) q0 p q : co p0 m q0 -> (p0 <= p)%Z -> (forall a, q a <= q0 a + (p - p0))%Z -> co p m q.
Proof.
  intros H Hp Hq s. specialize (H s). destruct (m s) as [[[a s']|e| |] c]; try lia. specialize (Hq a). lia.
Qed.
Lemma co_bind {A B} p0 (m : M A) q0 (f : A -> M B) p q : co p0 m q0 -> (p0 <= p)%Z ->
  (forall a, co (p - p0 + q0 a - 1) (f a) q) -> co p (bind m f) q.
Proof.
  intros H Hp Hf s. specialize (H s). unfold bind. destruct (m s) as [[[a s']|e| |] c]; try lia.
  specialize (Hf a s'). cbv beta iota in H. destruct (f a s') as [[[b s2]|e| |] c']; cbn [m_add m_one ops]; cbv beta iota in Hf; lia.
Qed.
Lemma co_ret {A} (a : A) p q : (q a <= p)%Z -> co p (ret a) q.
Proof. intros H s. unfold ret. cbn [m_zero ops]. lia. Qed.
Lemma co_stop {A} p (q : A -> Z) : (0 <= p)%Z -> (forall e, co p (fail e) q) /\ co p panic q /\ co p nofuel q.
Proof. intros H. repeat split; intros; intros s; unfold fail, panic, nofuel; cbn [m_zero ops]; pose proof (worth_pos s); lia. Qed.
Lemma co_fail {A} p (q : A -> Z) e : (0 <= p)%Z -> co p (fail e) q.
Proof. intros H. apply co_stop. exact H. Qed.
Lemma co_panic {A} p (q : A -> Z) : (0 <= p)%Z -> co p panic q.
Proof. intros H. apply co_stop. exact H. Qed.
Lemma co_nofuel {A} p (q : A -> Z) : (0 <= p)%Z -> co p nofuel q.
Proof. intros H. apply co_stop. exact H. Qed.
Lemma co_assoc {A B C} p (m : M A) (g : A -> M B) (f : B -> M C) q : co p (bind m (fun x => bind (g x) f)) q -> co p (bind (bind m g) f) q.
Proof.
  intros H s. specialize (H s). unfold bind in *. destruct (m s) as [[[a s']|e| |] c]; try exact H.
  destruct (g a s') as [[[b s2]|e| |] c']; cbn [m_add m_one ops] in *; try lia.
  destruct (f b s2) as [[[d s3]|e| |] c2]; cbn [m_add m_one ops] in *; lia.
Qed.
Lemma co_op {A} (f : st -> res (A * st)) : (forall s, match f s with Ok (_, s') => s_ms s' = s_ms s | _ => True end) -> co 1 (op f) (fun _ => 0%Z).
Proof.
  intros H s. specialize (H s). unfold op. pose proof (worth_pos s). destruct (f s) as [[a s']|e| |]; cbn [m_one ops]; try lia. unfold worth. rewrite H. lia.
Qed.
Lemma co_ok_or {A} (o : option A) e p q : (0 <= p)%Z -> (forall a, o = Some a -> q a <= p)%Z -> co p (ok_or o e) q.
Proof. intros Hp H. destruct o; cbn [ok_or]; [apply co_ret, H; reflexivity|apply co_fail, Hp]. Qed.
Lemma co_ret_bind {A B} (a : A) (f : A -> M B) p q : co (p - 1) (f a) q -> co p (bind (ret a) f) q.
Proof. intros H s. specialize (H s). unfold bind, ret. destruct (f a s) as [[[b s2]|e| |] c]; cbn [m_add m_one m_zero ops]; lia. Qed.
Lemma co_fail_bind {A B} e (f : A -> M B) p q : (0 <= p)%Z -> co p (bind (fail e) f) q.
Proof. intros H s. unfold bind, fail, panic. cbn [m_zero ops]. pose proof (worth_pos s). lia. Qed.
Lemma co_panic_bind {A B} (f : A -> M B) p q : (0 <= p)%Z -> co p (bind panic f) q.
Proof. intros H s. unfold bind, fail, panic. cbn [m_zero ops]. pose proof (worth_pos s). lia. Qed.
Lemma co_ok_or_bind {A B} (o : option A) e (f : A -> M B) p q : (0 <= p)%Z -> (forall a, o = Some a -> co (p - 1) (f a) q) -> co p (bind (ok_or o e) f) q.
Proof. intros Hp H. destruct o; cbn [ok_or]; [apply co_ret_bind, H; reflexivity|apply co_fail_bind, Hp]. Qed.

(** ** Primitives *)
Lemma co_get : co 1 get (fun _ => 0%Z).
Proof. apply co_op. intros s. reflexivity. Qed.
Lemma co_text : co 1 text (fun _ => 0%Z).
Proof. apply co_op. intros s. reflexivity. Qed.
Lemma co_len : co 1 len_chars (fun _ => 0%Z).
Proof. apply co_op. intros s. reflexivity. Qed.
Lemma co_slots E n : co (1 + Z.of_nat (slots n)) (intern E n) (fun _ => 0%Z).
Proof.
  intros s. unfold intern, op_n. pose proof (worth_pos s). unfold Parser.intern. destruct (_ <? _)%N; cbn [ops]; [lia|].
  unfold worth, set_store in *. cbn [s_ms]. lia.
Qed.
Lemma co_intern E n : slots n = 0 -> co 1 (intern E n) (fun _ => 0%Z).
Proof. intros H. pose proof (co_slots E n) as Hc. rewrite H in Hc. exact Hc. Qed.
Lemma co_nodes E l : co (1 + Z.of_nat (length l)) (intern E (NNodes l)) (fun _ => 0%Z).
Proof. exact (co_slots E (NNodes l)). Qed.
Lemma co_res k h : co 1 (res_ k h) (fun _ => 0%Z).
Proof. apply co_op. intros s. unfold Parser.res_. destruct (resolve _ _ _); [reflexivity|exact I]. Qed.
Lemma co_modify k h f : co 1 (modify k h f) (fun _ => 0%Z).
Proof. apply co_op. intros s. unfold Parser.modify. destruct (resolve _ _ _); [reflexivity|exact I]. Qed.
Lemma co_run w b : co 1 (run_w w b) (fun _ => 0%Z).
Proof. apply co_op. intros s. unfold Parser.run_w. destruct (w b) as [b' [[]|e| |]]; auto. Qed.
Lemma co_update f : (forall s, s_ms (f s) = s_ms s) -> co 1 (update f) (fun _ => 0%Z).
Proof. intros H. apply co_op. exact H. Qed.
Lemma co_event E w : co 0 (show_event E w) (fun _ => 0%Z).
Proof. intros s. unfold show_event. cbn [ops]. lia. Qed.
Lemma co_scan n : co 0 (scan n) (fun _ => 0%Z).
Proof. intros s. unfold scan. cbn [ops]. lia. Qed.
(** Consuming. *)
Lemma co_lift {A} (f : mstring -> mres A) q : (forall m, match f m with Ok (o, m') => (KC * Z.of_nat (length (ms_str m')) + q o <= KC * Z.of_nat (length (ms_str m)))%Z | _ => True end) ->
  co 1 (lift f) q.
Proof.
  intros H s. specialize (H (s_ms s)). unfold lift, op, Parser.lift. pose proof (worth_pos s).
  destruct (f (s_ms s)) as [[o m']|e| |]; cbn [m_one ops]; try lia. unfold worth, set_ms. cbn [s_ms]. lia.
Qed.
Lemma co_eatif f : co 1 (eat_if f) (fun o => match o with Some _ => KC | None => 0%Z end).
Proof.
  apply co_lift. intros m. unfold try_consume_char_if. destruct (ms_str m) as [|c r] eqn:Et; [rewrite Et; cbn; lia|].
  destruct (f c); [|rewrite Et; lia]. unfold ms_drop. destruct (_ <=? _); [|exact I]. cbn [ms_str length]. unfold KC. lia.
Qed.
Lemma co_next e : co 2 (next_char e) (fun _ => KC).
Proof.
  unfold next_char. eapply (co_bind 1 _ (fun o => match o with Some _ => KC | None => 0%Z end)); [|lia|].
  - apply co_lift. intros m. unfold try_consume. destruct (ms_str m) as [|c r] eqn:Et; [rewrite Et; cbn; lia|].
    unfold ms_drop. destruct (_ <=? _); [|exact I]. cbn [ms_str length]. unfold KC. lia.
  - intros [c|]; cbn [ok_or]; [apply co_ret; lia|apply co_fail; lia].
Qed.
Lemma co_eat c : co 2 (eat_char c) (fun b => if b then KC else 0%Z).
Proof.
  unfold eat_char. change (lift (try_consume_char c)) with (eat_if (fun x => (x =? c)%N)).
  eapply co_bind; [apply co_eatif|lia|]. intros [x|]; apply co_ret; cbn [is_some]; lia.
Qed.
Lemma co_eats p : co 2 (eat_str p) (fun b => if b then (KC * Z.of_nat (length p))%Z else 0%Z).
Proof.
  unfold eat_str. eapply (co_bind 1 _ (fun o => match o with Some _ => (KC * Z.of_nat (length p))%Z | None => 0%Z end)); [|lia|].
  - apply co_lift. intros m. unfold try_consume_str. destruct (strip_prefix p _) as [r|] eqn:Et; [|lia].
    apply strip_length in Et. unfold ms_drop. destruct (_ <=? _); [|exact I]. cbn [ms_str]. unfold KC. lia.
  - intros [x|]; apply co_ret; cbn [is_some]; lia.
Qed.
Lemma co_expect c e : co 3 (expect_char c e) (fun _ => KC).
Proof. unfold expect_char. eapply co_bind; [apply co_eat|lia|]. intros []; [apply co_ret; lia|apply co_fail; lia]. Qed.
Lemma co_expects p e : co 3 (expect_str p e) (fun _ => KC * Z.of_nat (length p))%Z.
Proof. unfold expect_str. eapply co_bind; [apply co_eats|lia|]. intros []; [apply co_ret; lia|apply co_fail; lia]. Qed.
Lemma co_first l n : Forall (fun p => n <= length p) l ->
  co (3 * Z.of_nat (length l)) (eat_first l) (fun o => match o with Some _ => (KC * Z.of_nat n)%Z | None => 0%Z end).
Proof.
  induction 1 as [|p l Hp Hl IH]; cbn [eat_first length]; [apply co_ret; lia|].
  eapply co_bind; [apply co_eats|lia|]. intros [].
  - apply co_ret. unfold KC. lia.
  - eapply co_weak; [exact IH|lia|]. intros []; lia.
Qed.
Lemma co_special : co 60 (consume_special special_table) (fun o => match o with Some _ => (KC * 3)%Z | None => 0%Z end).
Proof.
  assert (H : forall l, Forall (fun p => 3 <= length (fst p)) l -> co (3 * Z.of_nat (length l)) (consume_special l) (fun o => match o with Some _ => (KC * 3)%Z | None => 0%Z end)).
  { induction 1 as [|[p k] l Hp Hl IH]; cbn [consume_special length fst] in *; [apply co_ret; lia|].
    eapply co_bind; [apply co_eats|lia|]. intros [].
    - apply co_ret. unfold KC. lia.
    - eapply co_weak; [exact IH|lia|]. intros []; lia. }
  eapply co_weak; [apply H; repeat constructor|cbn; lia|]. intros []; cbn; lia.
Qed.
Lemma co_bytes n : co 1 (lift (try_consume_n_bytes n)) (fun o => match o with Some a => (KC * Z.of_nat (length a))%Z | None => 0%Z end).
Proof.
  apply co_lift. intros m. unfold try_consume_n_bytes. destruct (split_bytes n _) as [[a b]|] eqn:Et; [|lia].
  apply split_length in Et. unfold ms_drop. destruct (_ <=? _); [|exact I]. cbn [ms_str]. unfold KC. lia.
Qed.
Lemma co_bytes0 n : co 1 (lift (try_consume_n_bytes n)) (fun _ => 0%Z).
Proof. eapply co_weak; [apply co_bytes|lia|]. intros [a|]; unfold KC; lia. Qed.
Lemma co_2 : co 1 (lift try_consume_2_chars) (fun _ => 0%Z).
Proof.
  apply co_lift. intros m. unfold try_consume_2_chars. destruct (ms_str m) as [|c [|d r]] eqn:Et; try (rewrite Et; lia).
  unfold ms_drop. destruct (_ <=? _); [|exact I]. cbn [ms_str length]. unfold KC. lia.
Qed.

(** ** Functions *)
Create HintDb mc.
#[export] Hint Resolve co_get co_text co_len co_intern co_nodes co_res co_modify co_run co_event co_scan co_eatif co_next co_eat co_eats co_expect co_expects co_special co_2 : mc.
#[export] Hint Extern 1 (slots _ = 0) => reflexivity : mc.
Ltac posc x := lazymatch x with xH => idtac | xO ?y => posc y | xI ?y => posc y end.
Ltac lens := repeat match goal with |- context [Z.of_nat (length ?l)] => let n := eval vm_compute in (Z.of_nat (length l)) in lazymatch n with Z0 => idtac | Zpos ?x => posc x end; progress change (Z.of_nat (length l)) with n end.
Ltac norm :=
  match goal with
  | |- co ?p ?m ?q => let p' := eval vm_compute in p in lazymatch p' with Z0 => change (co p' m q) | Zpos ?x => posc x; change (co p' m q) end
  end.
Ltac zz := cbv beta iota; unfold KC; try lens; rewrite ?rev_length; cbn [length]; lia.
Ltac c1 :=
  lazymatch goal with
  | |- co _ (bind (bind _ _) _) _ => apply co_assoc
  | |- co _ (bind (ret _) _) _ => apply co_ret_bind; try norm
  | |- co _ (bind (fail _) _) _ => apply co_fail_bind; zz
  | |- co _ (bind panic _) _ => apply co_panic_bind; zz
  | |- co _ (bind (ok_or _ _) _) _ => apply co_ok_or_bind; [zz|let H := fresh in intros ? H; first [discriminate H | try norm]]
  | |- co _ (bind (if ?b then _ else _) _) _ => destruct b
  | |- co _ (bind (match ?x with _ => _ end) _) _ => destruct x
  | |- co _ (bind (let x := _ in _) _) _ => cbv zeta
  | |- co _ (bind (eat_char _) _) _ => eapply co_bind; [apply co_eat|zz|intros []; try norm]
  | |- co _ (bind (eat_str _) _) _ => eapply co_bind; [apply co_eats|zz|intros []; lens; try norm]
  | |- co _ (bind (expect_str _ _) _) _ => eapply co_bind; [apply co_expects|zz|intros []; lens; try norm]
  | |- co _ (bind (eat_if _) _) _ => eapply co_bind; [apply co_eatif|zz|intros [?|]; try norm]
  | |- co _ (bind (lift (try_consume_n_bytes _)) _) _ => eapply co_bind; [apply co_bytes0|zz|intros ?; try norm]
  | |- co _ (bind (update _) _) _ => eapply co_bind; [apply co_update; intros []; first [reflexivity | cbn [Parser.s_fps]; destruct (_ <? _); reflexivity]|zz|intros ?; try norm]
  | |- co _ (bind _ _) _ => eapply co_bind; [solve [eauto 3 with mc]|zz|intros ?; try norm]
  | |- co _ (ret _) _ => apply co_ret; zz
  | |- co _ (fail _) _ => apply co_fail; zz
  | |- co _ panic _ => apply co_panic; zz
  | |- co _ nofuel _ => apply co_nofuel; zz
  | |- co _ (ok_or _ _) _ => apply co_ok_or; [zz|intros ? ?; zz]
  | |- co _ (let x := _ in _) _ => cbv zeta
  | |- co _ (if ?b then _ else _) _ => destruct b
  | |- co _ (match ?x with _ => _ end) _ => destruct x
  | |- co _ (update _) _ => eapply co_weak; [apply co_update; intros []; first [reflexivity | cbn [Parser.s_fps]; destruct (_ <? _); reflexivity]|zz|intros ?; zz]
  | |- co _ _ _ => eapply co_weak; [solve [eauto 3 with mc]|zz|intros ?; zz]
  end; cbv beta iota.
Ltac cs := repeat c1.
Local Notation "'left' n" := (fun _ => n%Z) (at level 0, n at level 0).
Lemma c_ext : co 9 pointer_ext_qualifiers (left 0).
Proof. unfold pointer_ext_qualifiers. cs. Qed.
Lemma c_loop fuel c n : co 3 (number_loop fuel c n) (left 0).
Proof. revert c n. induction fuel as [|fuel IH]; intros c n; cbn [number_loop]; cs. Qed.
#[export] Hint Resolve c_ext c_loop : mc.
Lemma c_number : co 6 demangle_number (left 150).
Proof. unfold demangle_number. cs. Qed.
#[export] Hint Resolve c_number : mc.
Lemma c_unsigned : co 6 demangle_unsigned (left 149).
Proof. unfold demangle_unsigned. cs. Qed.
Lemma c_signed : co 6 demangle_signed (left 149).
Proof. unfold demangle_signed. cs. Qed.
Lemma c_quals : co 3 demangle_qualifiers (left 159).
Proof. unfold demangle_qualifiers. cs. Qed.
Lemma c_cv : co 10 demangle_pointer_cv_qualifiers (left 150).
Proof. unfold demangle_pointer_cv_qualifiers. cs. Qed.
Lemma c_ref : co 6 demangle_function_ref_qualifier (left 0).
Proof. unfold demangle_function_ref_qualifier. cs. Qed.
Lemma c_cc : co 3 demangle_calling_convention (left 159).
Proof. unfold demangle_calling_convention. cs. Qed.
Lemma c_sc : co 3 demangle_variable_storage_class (left 159).
Proof. unfold demangle_variable_storage_class. cs. Qed.
Lemma c_throw : co 6 demangle_throw_specification (left 150).
Proof. unfold demangle_throw_specification. cs. Qed.
Lemma c_class : co 10 demangle_function_class (left 140).
Proof. unfold demangle_function_class. cs. Qed.
Lemma c_u32 n e : co 0 (to_u32 n e) (left 0).
Proof. unfold to_u32. cs. Qed.
Lemma c_i32 n e : co 0 (to_i32 n e) (left 0).
Proof. unfold to_i32. cs. Qed.
Lemma c_prim E : co 5 (demangle_primitive_type E) (left 150).
Proof. unfold demangle_primitive_type, demangle_primitive_kind. cs. Qed.
Lemma c_char : co 3 demangle_char_literal (left 150).
Proof. unfold demangle_char_literal. cs. Qed.
#[export] Hint Resolve c_unsigned c_signed c_quals c_cv c_ref c_cc c_sc c_throw c_class c_u32 c_i32 c_prim c_char : mc.
Lemma c_wchar : co 3 demangle_wchar_literal (left 290).
Proof. unfold demangle_wchar_literal. cs. Qed.
#[export] Hint Resolve c_wchar : mc.
Lemma c_uid qn : co 6 (unqualified_identifier qn) (left 0).
Proof. unfold unqualified_identifier. cs. Qed.
Lemma c_syn_id E id : co 4 (synthesize_from_id E id) (left 0).
Proof. unfold synthesize_from_id. cs. Qed.
#[export] Hint Resolve c_uid c_syn_id : mc.
Lemma c_syn E n : co 6 (synthesize_from_name E n) (left 0).
Proof. unfold synthesize_from_name. cs. Qed.
#[export] Hint Resolve c_syn : mc.
Lemma c_names l : co (3 * Z.of_nat (length l)) (resolve_names l) (left 0).
Proof.
  induction l as [|h l IH]; cbn [resolve_names length]; [apply co_ret; lia|].
  eapply co_bind; [apply co_res|lia|]. intros n. destruct n; try (apply co_panic; lia).
  eapply co_bind; [exact IH|lia|]. intros r. apply co_ret. lia.
Qed.
Lemma c_mem E x : co 35 (memorize_string E x) (left 0).
Proof.
  unfold memorize_string. c1. destruct (Nat.leb_spec 10 (length (s_names a))); [cs|].
  apply (co_bind 27 _ (left 0)); [eapply co_weak; [apply c_names|lia|intros; lia]|lia|]. intros k. norm. cs.
Qed.
#[export] Hint Resolve c_mem : mc.
Lemma c_render E w : co 5 (render E w) (left 0).
Proof. unfold render, take_text. cs. Qed.
#[export] Hint Resolve c_render : mc.
Lemma c_memid E h : co 41 (memorize_identifier E h) (left 0).
Proof. unfold memorize_identifier. cs. Qed.
#[export] Hint Resolve c_memid : mc.

Section Knot.
  Variable E : env.
  Variable K : knot.
  Hypothesis Hparse : co 20 (k_parse K) (left 50).
  Hypothesis Htype : forall m, co 50 (k_type K m) (left 120).
  Hypothesis Htinst : forall b, co 20 (k_tinst K b) (left 200).

  Lemma c_string (m : bool) : co 10 (demangle_simple_string E m) (left 110).
  Proof. unfold demangle_simple_string. cs. Qed.
  Hint Resolve c_string : mc.
  Lemma c_sname m : co 10 (demangle_simple_name E m) (left 100).
  Proof. unfold demangle_simple_name. cs. Qed.
  Lemma c_backref : co 6 demangle_back_ref_name (left 150).
  Proof. unfold demangle_back_ref_name. cs. Qed.
  Lemma c_anon : co 5 (demangle_anonymous_namespace_name E) (left 380).
  Proof. unfold demangle_anonymous_namespace_name. cs. Qed.
  Lemma c_local : co 5 (demangle_locally_scoped_name_piece E K) (left 330).
  Proof. unfold demangle_locally_scoped_name_piece. cs. Qed.
  Hint Resolve c_sname c_backref c_anon c_local : mc.
  Lemma c_piece : co 22 (demangle_name_scope_piece E K) (left 100).
  Proof. unfold demangle_name_scope_piece. cs. Qed.
  Hint Resolve c_piece : mc.
  Lemma c_scopes fuel acc : co (30 + Z.of_nat (length acc)) (scope_loop E K fuel acc) (fun l => 150 + Z.of_nat (length l))%Z.
  Proof. revert acc. induction fuel as [|fuel IH]; intros acc; cbn [scope_loop]; cs. Qed.
  Hint Resolve c_scopes : mc.
  Lemma c_chain id : co 40 (demangle_name_scope_chain E K id) (left 150).
  Proof. unfold demangle_name_scope_chain. cs. Qed.
  Hint Resolve c_chain : mc.
  Lemma c_intrinsic c g : co 1 (translate_intrinsic c g) (left 0).
  Proof. unfold translate_intrinsic. cs. Qed.
  Hint Resolve c_intrinsic : mc.
  Lemma c_group g : co 20 (demangle_function_identifier_code_group E g) (left 140).
  Proof. unfold demangle_function_identifier_code_group. cs. Qed.
  Hint Resolve c_group : mc.
  Lemma c_code : co 20 (demangle_function_identifier_code E) (left 260).
  Proof. unfold demangle_function_identifier_code. cs. Qed.
  Hint Resolve c_code : mc.
  Lemma c_utn m : co 23 (demangle_unqualified_type_name E K m) (left 90).
  Proof. unfold demangle_unqualified_type_name. cs. Qed.
  Lemma c_usn b : co 23 (demangle_unqualified_symbol_name E K b) (left 90).
  Proof. unfold demangle_unqualified_symbol_name. cs. Qed.
  Hint Resolve c_utn c_usn : mc.
  Lemma c_fqtn : co 25 (demangle_fully_qualified_type_name E K) (left 170).
  Proof. unfold demangle_fully_qualified_type_name. cs. Qed.
  Lemma c_fqsn : co 25 (demangle_fully_qualified_symbol_name E K) (left 170).
  Proof. unfold demangle_fully_qualified_symbol_name. cs. Qed.
  Hint Resolve c_fqtn c_fqsn : mc.
  Lemma c_custom : co 10 (demangle_custom_type E K) (left 170).
  Proof. unfold demangle_custom_type. cs. Qed.
  Lemma c_tag : co 10 (demangle_class_type E K) (left 170).
  Proof. unfold demangle_class_type. cs. Qed.
  Lemma c_params fuel acc : co (60 + Z.of_nat (length acc)) (params_loop K fuel acc) (fun l => Z.of_nat (length l)).
  Proof. revert acc. induction fuel as [|fuel IH]; intros acc; cbn [params_loop]; cs. Qed.
  Hint Resolve c_custom c_tag c_params : mc.
  Lemma c_plist : co 80 (demangle_function_parameter_list E K) (left 150).
  Proof. unfold demangle_function_parameter_list. cs. Qed.
  Hint Resolve c_plist : mc.
  Lemma c_fn b : co 60 (demangle_function_type E K b) (left 170).
  Proof. unfold demangle_function_type. cs. Qed.
  Hint Resolve c_fn : mc.
  Lemma c_ptr : co 30 (demangle_pointer_type E K) (left 110).
  Proof. unfold demangle_pointer_type. cs. Qed.
  Lemma c_mptr : co 30 (demangle_member_pointer_type E K) (left 110).
  Proof. unfold demangle_member_pointer_type. cs. Qed.
  Lemma c_dims fuel r acc : co (10 + Z.of_nat (length acc)) (dims_loop E fuel r acc) (fun l => Z.of_nat (length l)).
  Proof. revert r acc. induction fuel as [|fuel IH]; intros r acc; cbn [dims_loop]; cs. Qed.
  Hint Resolve c_ptr c_mptr c_dims : mc.
  Lemma c_arr : co 10 (demangle_array_type E K) (left 200).
  Proof. unfold demangle_array_type. cs. Qed.
  Hint Resolve c_arr : mc.
  Lemma c_type m : co 50 (demangle_type E K m) (left 120).
  Proof. unfold demangle_type. cs. Qed.
  Lemma c_offsets n : co 8 (read_offsets n) (left 0).
  Proof. induction n as [|n IH]; cbn [read_offsets]; cs. Qed.
  Lemma c_tsym : co 30 (template_symbol E K) (left 0).
  Proof. unfold template_symbol. cs. Qed.
  Hint Resolve c_offsets c_tsym : mc.
  Lemma c_arg : co 105 (template_arg E K) (left 130).
  Proof.
    unfold template_arg.
    assert (Hf : forall l n, Forall (fun p => n <= length p) l -> (length l <= 4) -> co 12 (eat_first l) (fun o => match o with Some _ => (KC * Z.of_nat n)%Z | None => 0%Z end)).
    { intros l n H Hl. eapply co_weak; [apply co_first; exact H|lia|]. intros []; lia. }
    eapply co_bind; [apply co_eats|zz|intros []; lens; try norm].
    - cs. eapply co_bind; [apply (Hf _ 1); [repeat constructor|cbn; lia]|zz|intros [p|]; norm]; cs.
      eapply co_bind; [apply (Hf _ 1); [repeat constructor|cbn; lia]|zz|intros [p|]; norm]; cs.
    - cs. eapply co_bind; [apply (Hf _ 1); [repeat constructor|cbn; lia]|zz|intros [p|]; norm]; cs.
      eapply co_bind; [apply (Hf _ 1); [repeat constructor|cbn; lia]|zz|intros [p|]; norm]; cs.
  Qed.
  Hint Resolve c_arg : mc.
  Lemma c_args fuel acc : co (125 + Z.of_nat (length acc)) (targs_loop E K fuel acc) (fun l => 150 + Z.of_nat (length l))%Z.
  Proof.
    revert acc. induction fuel as [|fuel IH]; intros acc; cbn [targs_loop]; cs.
    eapply co_bind; [apply (co_first _ 2); repeat constructor|zz|intros [p|]; try norm]; cs.
  Qed.
  Hint Resolve c_args : mc.
  Lemma c_alist : co 130 (demangle_template_parameter_list E K) (left 140).
  Proof. unfold demangle_template_parameter_list. cs. Qed.
  Hint Resolve c_alist : mc.
  Lemma c_tinst b : co 20 (demangle_template_instantiation_name E K b) (left 200).
  Proof. unfold demangle_template_instantiation_name. cs. Qed.

  (** ** Symbols *)
  Lemma c_var sc : co 60 (demangle_variable_encoding E K sc) (left 0).
  Proof. unfold demangle_variable_encoding. cs. Qed.
  Lemma c_adjust fc : co 30 (this_adjust fc) (left 0).
  Proof. unfold this_adjust. cs. Qed.
  Hint Resolve c_adjust : mc.
  Lemma c_fenc : co 40 (demangle_function_encoding E K) (left 0).
  Proof. unfold demangle_function_encoding. cs. Qed.
  Hint Resolve c_var c_fenc : mc.
  Lemma c_enc h : co 80 (demangle_encoded_symbol E K h) (left 0).
  Proof. unfold demangle_encoded_symbol. cs. Qed.
  Hint Resolve c_enc : mc.
  Lemma c_decl : co 30 (demangle_declarator E K) (left 0).
  Proof. unfold demangle_declarator. cs. Qed.
  Hint Resolve c_decl : mc.
  Lemma c_stab k : co 50 (demangle_special_table_symbol_node E K k) (left 0).
  Proof. unfold demangle_special_table_symbol_node. cs. Qed.
  Lemma c_guard b : co 60 (demangle_local_static_guard E K b) (left 0).
  Proof. unfold demangle_local_static_guard. cs. Qed.
  Lemma c_untyped n : co 60 (demangle_untyped_variable E K n) (left 0).
  Proof. unfold demangle_untyped_variable. cs. Qed.
  Lemma c_base : co 60 (demangle_rtti_base_class_descriptor_node E K) (left 0).
  Proof. unfold demangle_rtti_base_class_descriptor_node. cs. Qed.
  Lemma c_stub b : co 100 (demangle_init_fini_stub E K b) (left 0).
  Proof. unfold demangle_init_fini_stub. cs. Qed.
  Lemma c_vcall : co 60 (demangle_vcall_thunk_node E K) (left 0).
  Proof. unfold demangle_vcall_thunk_node. cs. Qed.
  Lemma c_wide fuel len tr ob : co 20 (wide_loop E fuel len tr ob) (left 0).
  Proof. revert len ob. induction fuel as [|fuel IH]; intros len ob; cbn [wide_loop]; cs. Qed.
  Lemma c_narrow fuel acc : co (20 + 5 * Z.of_nat (length acc)) (narrow_loop fuel acc) (fun l => 5 * Z.of_nat (length l))%Z.
  Proof.
    revert acc. induction fuel as [|fuel IH]; intros acc; cbn [narrow_loop]; [apply co_nofuel; lia|].
    eapply co_bind; [apply co_eat|lia|]. intros []; [apply co_ret; rewrite rev_length; unfold KC; lia|].
    eapply co_bind; [apply co_text|lia|]. intros s. destruct (is_empty s); [apply co_fail; lia|].
    eapply co_bind; [apply c_char|lia|]. intros c. cbv beta. destruct (_ <=? _); [apply co_fail; lia|].
    eapply co_weak; [apply IH|cbn [length]; lia|]. intros l. cbn [length]. lia.
  Qed.
  Lemma c_nout l sz num i n tr ob : co (5 * Z.of_nat n) (narrow_out E l sz num i n tr ob) (left 0).
  Proof.
    revert i ob. induction n as [|n IH]; intros i ob; cbn [narrow_out]; [apply co_ret; lia|].
    apply co_ok_or_bind; [lia|intros c _]. eapply co_bind; [apply co_run|lia|]. intros b.
    eapply co_weak; [apply IH|lia|]. intros; lia.
  Qed.
  Hint Resolve c_stab c_guard c_untyped c_base c_stub c_vcall c_wide c_narrow c_nout : mc.
  Lemma c_strlit : co 10 (demangle_string_literal E) (left 0).
  Proof.
    unfold demangle_string_literal, take_text. do 5 c1.
    all: try solve [cs]. all: cs.
    all: match goal with |- co _ (bind (narrow_out _ ?l ?sz _ _ _ _ _) _) _ =>
           assert (Hd : (Z.of_nat (length l / sz) <= Z.of_nat (length l))%Z)
             by (destruct sz; [cbn; lia|]; apply inj_le, Nat.div_le_upper_bound; [lia|]; nia) end.
    all: eapply co_bind; [apply c_nout|cbn [length]; unfold KC; lia|]; intros ob; cbv beta.
    all: apply (co_weak 100 _ (left 0)); [cs|cbn [length]; unfold KC; lia|intros; cbn [length]; unfold KC; lia].
  Qed.
  Lemma c_rtd : co 60 (rtti_type_descriptor E K) (left 0).
  Proof. unfold rtti_type_descriptor. cs. Qed.
  Hint Resolve c_strlit c_rtd : mc.
  Lemma c_spec : co 62 (demangle_special_intrinsic E K) (left 0).
  Proof. unfold demangle_special_intrinsic. eapply co_bind; [apply co_special|zz|intros [k|]; norm]; [destruct k|]; cs. Qed.
  Lemma c_md5 : co 10 (demangle_md5_name E) (left 50).
  Proof. unfold demangle_md5_name. cs. Qed.
  Lemma c_typeinfo : co 10 (demangle_typeinfo_name E K) (left 50).
  Proof. unfold demangle_typeinfo_name. cs. Qed.
  Hint Resolve c_spec c_md5 c_typeinfo : mc.
  Lemma c_parse : co 20 (do_parse E K) (left 50).
  Proof. unfold do_parse. cs. Qed.
End Knot.

Lemma c_knot E fuel : co 20 (k_parse (knot_of E fuel)) (left 50) /\ (forall m, co 50 (k_type (knot_of E fuel) m) (left 120)) /\
  (forall b, co 20 (k_tinst (knot_of E fuel) b) (left 200)).
Proof.
  induction fuel as [|fuel (H1 & H2 & H3)]; cbn [knot_of k_parse k_type k_tinst].
  - repeat split; intros; apply co_nofuel; lia.
  - split; [apply c_parse; assumption|]. split; intros; [apply c_type; assumption|apply c_tinst; assumption].
Qed.
