(** The metered parser is the parser: with the meter forgotten, every function of Meter.v is the
    function of the same name of Parser.v.  Proof infrastructure for [Work]. *)
From Verif Require Import Parser Effort Meter.

Definition er {A} (m : M A) (m' : Parser.M A) : Prop := forall s, fst (m s) = m' s.
Definition erk (K : knot) (K' : Parser.knot) : Prop :=
  er (k_parse K) (Parser.k_parse K') /\ (forall m, er (k_type K m) (Parser.k_type K' m)) /\
  (forall b, er (k_tinst K b) (Parser.k_tinst K' b)).
Lemma er_op {A} (f : st -> res (A * st)) : er (op f) f.
Proof. intros s. reflexivity. Qed.
Lemma er_op_n {A} n (f : st -> res (A * st)) : er (op_n n f) f.
Proof. intros s. reflexivity. Qed.
Lemma er_ret {A} (a : A) : er (ret a) (Parser.ret a).
Proof. intros s. reflexivity. Qed.
Lemma er_fail {A} e : er (@fail A e) (Parser.fail e).
Proof. intros s. reflexivity. Qed.
Lemma er_panic {A} : er (@panic A) Parser.panic.
Proof. intros s. reflexivity. Qed.
Lemma er_nofuel {A} : er (@nofuel A) Parser.nofuel.
Proof. intros s. reflexivity. Qed.
Lemma er_bind {A B} (m : M A) m' (f : A -> M B) f' : er m m' -> (forall a, er (f a) (f' a)) -> er (bind m f) (Parser.bind m' f').
Proof.
  intros Hm Hf s. unfold bind, Parser.bind. rewrite <- (Hm s). destruct (m s) as [r c]. cbn [fst].
  destruct r as [[a s']|e| |]; try reflexivity. rewrite <- (Hf a s'). destruct (f a s'). reflexivity.
Qed.
Lemma er_ok_or {A} (o : option A) e : er (ok_or o e) (Parser.ok_or o e).
Proof. destruct o; intros s; reflexivity. Qed.
Lemma er_event {A} E w (m : M A) m' : er m m' -> er (bind (show_event E w) (fun _ => m)) m'.
Proof. intros Hm s. unfold bind, show_event. rewrite <- (Hm s). destruct (m s). reflexivity. Qed.
Lemma er_scan {A} n (m : M A) m' : er m m' -> er (bind (scan n) (fun _ => m)) m'.
Proof. intros Hm s. unfold bind, scan. rewrite <- (Hm s). destruct (m s). reflexivity. Qed.
Create HintDb er.
#[export] Hint Resolve er_op er_ret er_fail er_panic er_nofuel er_ok_or : er.
Ltac er1 :=
  match goal with
  | |- er (bind (scan _) _) _ => apply er_scan
  | |- er (bind _ _) (Parser.bind _ _) => apply er_bind; [|intros ?]
  | |- er get Parser.get => apply er_op
  | |- er text Parser.text => apply er_op
  | |- er len_chars Parser.len_chars => apply er_op
  | |- er (lift _) (Parser.lift _) => apply er_op
  | |- er (intern _ _) (Parser.intern _ _) => apply er_op_n
  | |- er (res_ _ _) (Parser.res_ _ _) => apply er_op
  | |- er (modify _ _ _) (Parser.modify _ _ _) => apply er_op
  | |- er (run_w _ _) (Parser.run_w _ _) => apply er_op
  | |- er (update _) _ => apply er_op
  | |- er (k_parse ?K) (Parser.k_parse _) => match goal with H : erk K _ |- _ => apply H end
  | |- er (k_type ?K _) (Parser.k_type _ _) => match goal with H : erk K _ |- _ => apply H end
  | |- er (k_tinst ?K _) (Parser.k_tinst _ _) => match goal with H : erk K _ |- _ => apply H end
  | |- er (if ?b then _ else _) (if ?b then _ else _) => destruct b
  | |- er (match ?x with _ => _ end) (match ?x with _ => _ end) => destruct x
  | |- er (let x := _ in _) _ => cbv zeta
  | |- er _ _ => solve [eauto 3 with er]
  end.
Ltac erz := cbv zeta; repeat er1.

Lemma er_next_char (x0 : error) : er (next_char x0) (Parser.next_char x0).
Proof. unfold next_char, Parser.next_char. erz. Qed.
#[export] Hint Resolve er_next_char : er.
Lemma er_eat_char (x0 : N) : er (eat_char x0) (Parser.eat_char x0).
Proof. unfold eat_char, Parser.eat_char. erz. Qed.
#[export] Hint Resolve er_eat_char : er.
Lemma er_eat_str (x0 : str) : er (eat_str x0) (Parser.eat_str x0).
Proof. unfold eat_str, Parser.eat_str. erz. Qed.
#[export] Hint Resolve er_eat_str : er.
Lemma er_expect_char (x0 : N) (x1 : error) : er (expect_char x0 x1) (Parser.expect_char x0 x1).
Proof. unfold expect_char, Parser.expect_char. erz. Qed.
#[export] Hint Resolve er_expect_char : er.
Lemma er_expect_str (x0 : str) (x1 : error) : er (expect_str x0 x1) (Parser.expect_str x0 x1).
Proof. unfold expect_str, Parser.expect_str. erz. Qed.
#[export] Hint Resolve er_expect_str : er.
Lemma er_eat_if (x0 : (N -> bool)) : er (eat_if x0) (Parser.eat_if x0).
Proof. unfold eat_if, Parser.eat_if. erz. Qed.
#[export] Hint Resolve er_eat_if : er.
Lemma er_eat_first (x0 : list str) : er (eat_first x0) (Parser.eat_first x0).
Proof. induction x0 as [|x l IH]; cbn [eat_first Parser.eat_first]; erz. Qed.
#[export] Hint Resolve er_eat_first : er.
Lemma er_unqualified_identifier (x0 : handle) : er (unqualified_identifier x0) (Parser.unqualified_identifier x0).
Proof. unfold unqualified_identifier, Parser.unqualified_identifier. erz. Qed.
#[export] Hint Resolve er_unqualified_identifier : er.
Lemma er_synthesize_from_id E (x1 : handle) : er (synthesize_from_id E x1) (Parser.synthesize_from_id E x1).
Proof. unfold synthesize_from_id, Parser.synthesize_from_id. erz. Qed.
#[export] Hint Resolve er_synthesize_from_id : er.
Lemma er_synthesize_from_name E (x1 : str) : er (synthesize_from_name E x1) (Parser.synthesize_from_name E x1).
Proof. unfold synthesize_from_name, Parser.synthesize_from_name. erz. Qed.
#[export] Hint Resolve er_synthesize_from_name : er.
Lemma er_pointer_ext_qualifiers  : er (pointer_ext_qualifiers) (Parser.pointer_ext_qualifiers).
Proof. unfold pointer_ext_qualifiers, Parser.pointer_ext_qualifiers. erz. Qed.
#[export] Hint Resolve er_pointer_ext_qualifiers : er.
Lemma er_number_loop (x0 : nat) (x1 : N) (x2 : N) : er (number_loop x0 x1 x2) (Parser.number_loop x0 x1 x2).
Proof. revert x1 x2. induction x0 as [|x IH]; intros x1 x2; cbn [number_loop Parser.number_loop]; erz. Qed.
#[export] Hint Resolve er_number_loop : er.
Lemma er_demangle_number  : er (demangle_number) (Parser.demangle_number).
Proof. unfold demangle_number, Parser.demangle_number. erz. Qed.
#[export] Hint Resolve er_demangle_number : er.
Lemma er_demangle_unsigned  : er (demangle_unsigned) (Parser.demangle_unsigned).
Proof. unfold demangle_unsigned, Parser.demangle_unsigned. erz. Qed.
#[export] Hint Resolve er_demangle_unsigned : er.
Lemma er_demangle_signed  : er (demangle_signed) (Parser.demangle_signed).
Proof. unfold demangle_signed, Parser.demangle_signed. erz. Qed.
#[export] Hint Resolve er_demangle_signed : er.
Lemma er_to_u32 (x0 : N) (x1 : error) : er (to_u32 x0 x1) (Parser.to_u32 x0 x1).
Proof. unfold to_u32, Parser.to_u32. erz. Qed.
#[export] Hint Resolve er_to_u32 : er.
Lemma er_to_i32 (x0 : Z) (x1 : error) : er (to_i32 x0 x1) (Parser.to_i32 x0 x1).
Proof. unfold to_i32, Parser.to_i32. erz. Qed.
#[export] Hint Resolve er_to_i32 : er.
Lemma er_demangle_qualifiers  : er (demangle_qualifiers) (Parser.demangle_qualifiers).
Proof. unfold demangle_qualifiers, Parser.demangle_qualifiers. erz. Qed.
#[export] Hint Resolve er_demangle_qualifiers : er.
Lemma er_demangle_pointer_cv_qualifiers  : er (demangle_pointer_cv_qualifiers) (Parser.demangle_pointer_cv_qualifiers).
Proof. unfold demangle_pointer_cv_qualifiers, Parser.demangle_pointer_cv_qualifiers. erz. Qed.
#[export] Hint Resolve er_demangle_pointer_cv_qualifiers : er.
Lemma er_demangle_function_ref_qualifier  : er (demangle_function_ref_qualifier) (Parser.demangle_function_ref_qualifier).
Proof. unfold demangle_function_ref_qualifier, Parser.demangle_function_ref_qualifier. erz. Qed.
#[export] Hint Resolve er_demangle_function_ref_qualifier : er.
Lemma er_demangle_calling_convention  : er (demangle_calling_convention) (Parser.demangle_calling_convention).
Proof. unfold demangle_calling_convention, Parser.demangle_calling_convention. erz. Qed.
#[export] Hint Resolve er_demangle_calling_convention : er.
Lemma er_demangle_variable_storage_class  : er (demangle_variable_storage_class) (Parser.demangle_variable_storage_class).
Proof. unfold demangle_variable_storage_class, Parser.demangle_variable_storage_class. erz. Qed.
#[export] Hint Resolve er_demangle_variable_storage_class : er.
Lemma er_demangle_throw_specification  : er (demangle_throw_specification) (Parser.demangle_throw_specification).
Proof. unfold demangle_throw_specification, Parser.demangle_throw_specification. erz. Qed.
#[export] Hint Resolve er_demangle_throw_specification : er.
Lemma er_demangle_function_class  : er (demangle_function_class) (Parser.demangle_function_class).
Proof. unfold demangle_function_class, Parser.demangle_function_class. erz. Qed.
#[export] Hint Resolve er_demangle_function_class : er.
Lemma er_demangle_primitive_kind  : er (demangle_primitive_kind) (Parser.demangle_primitive_kind).
Proof. unfold demangle_primitive_kind, Parser.demangle_primitive_kind. erz. Qed.
#[export] Hint Resolve er_demangle_primitive_kind : er.
Lemma er_demangle_primitive_type E : er (demangle_primitive_type E) (Parser.demangle_primitive_type E).
Proof. unfold demangle_primitive_type, Parser.demangle_primitive_type. erz. Qed.
#[export] Hint Resolve er_demangle_primitive_type : er.
Lemma er_demangle_char_literal  : er (demangle_char_literal) (Parser.demangle_char_literal).
Proof. unfold demangle_char_literal, Parser.demangle_char_literal. erz. Qed.
#[export] Hint Resolve er_demangle_char_literal : er.
Lemma er_demangle_wchar_literal  : er (demangle_wchar_literal) (Parser.demangle_wchar_literal).
Proof. unfold demangle_wchar_literal, Parser.demangle_wchar_literal. erz. Qed.
#[export] Hint Resolve er_demangle_wchar_literal : er.
Lemma er_consume_special (x0 : list (str * sik)) : er (consume_special x0) (Parser.consume_special x0).
Proof. induction x0 as [|x l IH]; cbn [consume_special Parser.consume_special]; erz. Qed.
#[export] Hint Resolve er_consume_special : er.
Lemma er_translate_intrinsic (x0 : N) (x1 : code_group) : er (translate_intrinsic x0 x1) (Parser.translate_intrinsic x0 x1).
Proof. unfold translate_intrinsic, Parser.translate_intrinsic. erz. Qed.
#[export] Hint Resolve er_translate_intrinsic : er.
Lemma er_take_text (x0 : buf) : er (take_text x0) (Parser.take_text x0).
Proof. unfold take_text, Parser.take_text. erz. Qed.
#[export] Hint Resolve er_take_text : er.
Lemma er_render E (w : (kind -> handle -> W) -> W) : er (render E w) (Parser.render (fun sg => w (output E sg))).
Proof. unfold render, Parser.render, take_text, Parser.take_text. apply er_event. erz. Qed.
Lemma er_resolve_names (x0 : list handle) : er (resolve_names x0) (Parser.resolve_names x0).
Proof. induction x0 as [|x l IH]; cbn [resolve_names Parser.resolve_names]; erz. Qed.
#[export] Hint Resolve er_resolve_names : er.
Lemma er_memorize_string E (x1 : str) : er (memorize_string E x1) (Parser.memorize_string E x1).
Proof. unfold memorize_string, Parser.memorize_string. erz. Qed.
#[export] Hint Resolve er_memorize_string : er.
Lemma er_memorize_identifier E id : er (memorize_identifier E id) (Parser.memorize_identifier E id).
Proof. unfold memorize_identifier, Parser.memorize_identifier. erz. apply (er_render E (fun out => out KIdent id)). Qed.
#[export] Hint Resolve er_memorize_identifier : er.
Lemma er_demangle_simple_string E (x1 : bool) : er (demangle_simple_string E x1) (Parser.demangle_simple_string E x1).
Proof. unfold demangle_simple_string, Parser.demangle_simple_string. erz. Qed.
#[export] Hint Resolve er_demangle_simple_string : er.
Lemma er_demangle_simple_name E (x1 : bool) : er (demangle_simple_name E x1) (Parser.demangle_simple_name E x1).
Proof. unfold demangle_simple_name, Parser.demangle_simple_name. erz. Qed.
#[export] Hint Resolve er_demangle_simple_name : er.
Lemma er_demangle_back_ref_name  : er (demangle_back_ref_name) (Parser.demangle_back_ref_name).
Proof. unfold demangle_back_ref_name, Parser.demangle_back_ref_name. erz. Qed.
#[export] Hint Resolve er_demangle_back_ref_name : er.
Lemma er_demangle_anonymous_namespace_name E : er (demangle_anonymous_namespace_name E) (Parser.demangle_anonymous_namespace_name E).
Proof. unfold demangle_anonymous_namespace_name, Parser.demangle_anonymous_namespace_name. erz. Qed.
#[export] Hint Resolve er_demangle_anonymous_namespace_name : er.
Lemma er_demangle_locally_scoped_name_piece E K K' : erk K K' -> er (demangle_locally_scoped_name_piece E K) (Parser.demangle_locally_scoped_name_piece E K').
Proof.
  intros HK. unfold demangle_locally_scoped_name_piece, Parser.demangle_locally_scoped_name_piece. erz.
  apply (er_render E (fun out => w_str E (L "`") >> out KSym _ >> w_str E (L "'::`" ++ dec_N _ ++ L "'"))).
Qed.
#[export] Hint Resolve er_demangle_locally_scoped_name_piece : er.
Lemma er_demangle_name_scope_piece E K K' : erk K K' -> er (demangle_name_scope_piece E K) (Parser.demangle_name_scope_piece E K').
Proof. intros HK. unfold demangle_name_scope_piece, Parser.demangle_name_scope_piece. erz. Qed.
#[export] Hint Resolve er_demangle_name_scope_piece : er.
Lemma er_scope_loop E K K' (x2 : nat) (x3 : list handle) : erk K K' -> er (scope_loop E K x2 x3) (Parser.scope_loop E K' x2 x3).
Proof. intros HK. revert x3. induction x2 as [|x IH]; intros x3; cbn [scope_loop Parser.scope_loop]; erz. Qed.
#[export] Hint Resolve er_scope_loop : er.
Lemma er_demangle_name_scope_chain E K K' (x2 : handle) : erk K K' -> er (demangle_name_scope_chain E K x2) (Parser.demangle_name_scope_chain E K' x2).
Proof. intros HK. unfold demangle_name_scope_chain, Parser.demangle_name_scope_chain. erz. Qed.
#[export] Hint Resolve er_demangle_name_scope_chain : er.
Lemma er_demangle_function_identifier_code_group E (x1 : code_group) : er (demangle_function_identifier_code_group E x1) (Parser.demangle_function_identifier_code_group E x1).
Proof. unfold demangle_function_identifier_code_group, Parser.demangle_function_identifier_code_group. erz. Qed.
#[export] Hint Resolve er_demangle_function_identifier_code_group : er.
Lemma er_demangle_function_identifier_code E : er (demangle_function_identifier_code E) (Parser.demangle_function_identifier_code E).
Proof. unfold demangle_function_identifier_code, Parser.demangle_function_identifier_code. erz. Qed.
#[export] Hint Resolve er_demangle_function_identifier_code : er.
Lemma er_demangle_unqualified_type_name E K K' (x2 : bool) : erk K K' -> er (demangle_unqualified_type_name E K x2) (Parser.demangle_unqualified_type_name E K' x2).
Proof. intros HK. unfold demangle_unqualified_type_name, Parser.demangle_unqualified_type_name. erz. Qed.
#[export] Hint Resolve er_demangle_unqualified_type_name : er.
Lemma er_demangle_unqualified_symbol_name E K K' (x2 : nbb) : erk K K' -> er (demangle_unqualified_symbol_name E K x2) (Parser.demangle_unqualified_symbol_name E K' x2).
Proof. intros HK. unfold demangle_unqualified_symbol_name, Parser.demangle_unqualified_symbol_name. erz. Qed.
#[export] Hint Resolve er_demangle_unqualified_symbol_name : er.
Lemma er_demangle_fully_qualified_type_name E K K' : erk K K' -> er (demangle_fully_qualified_type_name E K) (Parser.demangle_fully_qualified_type_name E K').
Proof. intros HK. unfold demangle_fully_qualified_type_name, Parser.demangle_fully_qualified_type_name. erz. Qed.
#[export] Hint Resolve er_demangle_fully_qualified_type_name : er.
Lemma er_demangle_fully_qualified_symbol_name E K K' : erk K K' -> er (demangle_fully_qualified_symbol_name E K) (Parser.demangle_fully_qualified_symbol_name E K').
Proof. intros HK. unfold demangle_fully_qualified_symbol_name, Parser.demangle_fully_qualified_symbol_name. erz. Qed.
#[export] Hint Resolve er_demangle_fully_qualified_symbol_name : er.
Lemma er_demangle_custom_type E K K' : erk K K' -> er (demangle_custom_type E K) (Parser.demangle_custom_type E K').
Proof. intros HK. unfold demangle_custom_type, Parser.demangle_custom_type. erz. Qed.
#[export] Hint Resolve er_demangle_custom_type : er.
Lemma er_demangle_class_type E K K' : erk K K' -> er (demangle_class_type E K) (Parser.demangle_class_type E K').
Proof. intros HK. unfold demangle_class_type, Parser.demangle_class_type. erz. Qed.
#[export] Hint Resolve er_demangle_class_type : er.
Lemma er_params_loop K K' (x1 : nat) (x2 : list handle) : erk K K' -> er (params_loop K x1 x2) (Parser.params_loop K' x1 x2).
Proof. intros HK. revert x2. induction x1 as [|x IH]; intros x2; cbn [params_loop Parser.params_loop]; erz. Qed.
#[export] Hint Resolve er_params_loop : er.
Lemma er_demangle_function_parameter_list E K K' : erk K K' -> er (demangle_function_parameter_list E K) (Parser.demangle_function_parameter_list E K').
Proof. intros HK. unfold demangle_function_parameter_list, Parser.demangle_function_parameter_list. erz. Qed.
#[export] Hint Resolve er_demangle_function_parameter_list : er.
Lemma er_demangle_function_type E K K' (x2 : bool) : erk K K' -> er (demangle_function_type E K x2) (Parser.demangle_function_type E K' x2).
Proof. intros HK. unfold demangle_function_type, Parser.demangle_function_type. erz. Qed.
#[export] Hint Resolve er_demangle_function_type : er.
Lemma er_demangle_pointer_type E K K' : erk K K' -> er (demangle_pointer_type E K) (Parser.demangle_pointer_type E K').
Proof. intros HK. unfold demangle_pointer_type, Parser.demangle_pointer_type. erz. Qed.
#[export] Hint Resolve er_demangle_pointer_type : er.
Lemma er_demangle_member_pointer_type E K K' : erk K K' -> er (demangle_member_pointer_type E K) (Parser.demangle_member_pointer_type E K').
Proof. intros HK. unfold demangle_member_pointer_type, Parser.demangle_member_pointer_type. erz. Qed.
#[export] Hint Resolve er_demangle_member_pointer_type : er.
Lemma er_dims_loop E (x1 : nat) (x2 : N) (x3 : list handle) : er (dims_loop E x1 x2 x3) (Parser.dims_loop E x1 x2 x3).
Proof. revert x2 x3. induction x1 as [|x IH]; intros x2 x3; cbn [dims_loop Parser.dims_loop]; erz. Qed.
#[export] Hint Resolve er_dims_loop : er.
Lemma er_demangle_array_type E K K' : erk K K' -> er (demangle_array_type E K) (Parser.demangle_array_type E K').
Proof. intros HK. unfold demangle_array_type, Parser.demangle_array_type. erz. Qed.
#[export] Hint Resolve er_demangle_array_type : er.
Lemma er_demangle_type E K K' (x2 : qmm) : erk K K' -> er (demangle_type E K x2) (Parser.demangle_type E K' x2).
Proof. intros HK. unfold demangle_type, Parser.demangle_type. erz. Qed.
#[export] Hint Resolve er_demangle_type : er.
Lemma er_read_offsets (x0 : nat) : er (read_offsets x0) (Parser.read_offsets x0).
Proof. induction x0 as [|x IH]; cbn [read_offsets Parser.read_offsets]; erz. Qed.
#[export] Hint Resolve er_read_offsets : er.
Lemma er_template_symbol E K K' : erk K K' -> er (template_symbol E K) (Parser.template_symbol E K').
Proof. intros HK. unfold template_symbol, Parser.template_symbol. erz. Qed.
#[export] Hint Resolve er_template_symbol : er.
Lemma er_template_arg E K K' : erk K K' -> er (template_arg E K) (Parser.template_arg E K').
Proof. intros HK. unfold template_arg, Parser.template_arg. erz. Qed.
#[export] Hint Resolve er_template_arg : er.
Lemma er_targs_loop E K K' (x2 : nat) (x3 : list handle) : erk K K' -> er (targs_loop E K x2 x3) (Parser.targs_loop E K' x2 x3).
Proof. intros HK. revert x3. induction x2 as [|x IH]; intros x3; cbn [targs_loop Parser.targs_loop]; erz. Qed.
#[export] Hint Resolve er_targs_loop : er.
Lemma er_demangle_template_parameter_list E K K' : erk K K' -> er (demangle_template_parameter_list E K) (Parser.demangle_template_parameter_list E K').
Proof. intros HK. unfold demangle_template_parameter_list, Parser.demangle_template_parameter_list. erz. Qed.
#[export] Hint Resolve er_demangle_template_parameter_list : er.
Lemma er_demangle_template_instantiation_name E K K' (x2 : nbb) : erk K K' -> er (demangle_template_instantiation_name E K x2) (Parser.demangle_template_instantiation_name E K' x2).
Proof. intros HK. unfold demangle_template_instantiation_name, Parser.demangle_template_instantiation_name. erz. Qed.
#[export] Hint Resolve er_demangle_template_instantiation_name : er.
Lemma er_demangle_variable_encoding E K K' (x2 : storage_class) : erk K K' -> er (demangle_variable_encoding E K x2) (Parser.demangle_variable_encoding E K' x2).
Proof. intros HK. unfold demangle_variable_encoding, Parser.demangle_variable_encoding. erz. Qed.
#[export] Hint Resolve er_demangle_variable_encoding : er.
Lemma er_this_adjust (x0 : N) : er (this_adjust x0) (Parser.this_adjust x0).
Proof. unfold this_adjust, Parser.this_adjust. erz. Qed.
#[export] Hint Resolve er_this_adjust : er.
Lemma er_demangle_function_encoding E K K' : erk K K' -> er (demangle_function_encoding E K) (Parser.demangle_function_encoding E K').
Proof. intros HK. unfold demangle_function_encoding, Parser.demangle_function_encoding. erz. Qed.
#[export] Hint Resolve er_demangle_function_encoding : er.
Lemma er_demangle_encoded_symbol E K K' (x2 : handle) : erk K K' -> er (demangle_encoded_symbol E K x2) (Parser.demangle_encoded_symbol E K' x2).
Proof. intros HK. unfold demangle_encoded_symbol, Parser.demangle_encoded_symbol. erz. Qed.
#[export] Hint Resolve er_demangle_encoded_symbol : er.
Lemma er_demangle_declarator E K K' : erk K K' -> er (demangle_declarator E K) (Parser.demangle_declarator E K').
Proof. intros HK. unfold demangle_declarator, Parser.demangle_declarator. erz. Qed.
#[export] Hint Resolve er_demangle_declarator : er.
Lemma er_demangle_special_table_symbol_node E K K' (x2 : sik) : erk K K' -> er (demangle_special_table_symbol_node E K x2) (Parser.demangle_special_table_symbol_node E K' x2).
Proof. intros HK. unfold demangle_special_table_symbol_node, Parser.demangle_special_table_symbol_node. erz. Qed.
#[export] Hint Resolve er_demangle_special_table_symbol_node : er.
Lemma er_demangle_local_static_guard E K K' (x2 : bool) : erk K K' -> er (demangle_local_static_guard E K x2) (Parser.demangle_local_static_guard E K' x2).
Proof. intros HK. unfold demangle_local_static_guard, Parser.demangle_local_static_guard. erz. Qed.
#[export] Hint Resolve er_demangle_local_static_guard : er.
Lemma er_demangle_untyped_variable E K K' (x2 : str) : erk K K' -> er (demangle_untyped_variable E K x2) (Parser.demangle_untyped_variable E K' x2).
Proof. intros HK. unfold demangle_untyped_variable, Parser.demangle_untyped_variable. erz. Qed.
#[export] Hint Resolve er_demangle_untyped_variable : er.
Lemma er_demangle_rtti_base_class_descriptor_node E K K' : erk K K' -> er (demangle_rtti_base_class_descriptor_node E K) (Parser.demangle_rtti_base_class_descriptor_node E K').
Proof. intros HK. unfold demangle_rtti_base_class_descriptor_node, Parser.demangle_rtti_base_class_descriptor_node. erz. Qed.
#[export] Hint Resolve er_demangle_rtti_base_class_descriptor_node : er.
Lemma er_demangle_init_fini_stub E K K' (x2 : bool) : erk K K' -> er (demangle_init_fini_stub E K x2) (Parser.demangle_init_fini_stub E K' x2).
Proof. intros HK. unfold demangle_init_fini_stub, Parser.demangle_init_fini_stub. erz. Qed.
#[export] Hint Resolve er_demangle_init_fini_stub : er.
Lemma er_demangle_vcall_thunk_node E K K' : erk K K' -> er (demangle_vcall_thunk_node E K) (Parser.demangle_vcall_thunk_node E K').
Proof. intros HK. unfold demangle_vcall_thunk_node, Parser.demangle_vcall_thunk_node. erz. Qed.
#[export] Hint Resolve er_demangle_vcall_thunk_node : er.
Lemma er_wide_loop E (x1 : nat) (x2 : N) (x3 : bool) (x4 : buf) : er (wide_loop E x1 x2 x3 x4) (Parser.wide_loop E x1 x2 x3 x4).
Proof. revert x2 x3 x4. induction x1 as [|x IH]; intros x2 x3 x4; cbn [wide_loop Parser.wide_loop]; erz. Qed.
#[export] Hint Resolve er_wide_loop : er.
Lemma er_narrow_loop (x0 : nat) (x1 : list N) : er (narrow_loop x0 x1) (Parser.narrow_loop x0 x1).
Proof. revert x1. induction x0 as [|x IH]; intros x1; cbn [narrow_loop Parser.narrow_loop]; erz. Qed.
#[export] Hint Resolve er_narrow_loop : er.
Lemma er_narrow_out E (x1 : list N) (x2 : nat) (x3 : nat) (x4 : nat) (x5 : nat) (x6 : bool) (x7 : buf) : er (narrow_out E x1 x2 x3 x4 x5 x6 x7) (Parser.narrow_out E x1 x2 x3 x4 x5 x6 x7).
Proof. revert x1 x2 x3 x4 x6 x7. induction x5 as [|x IH]; intros x1 x2 x3 x4 x6 x7; cbn [narrow_out Parser.narrow_out]; erz. Qed.
#[export] Hint Resolve er_narrow_out : er.
Lemma er_demangle_string_literal E : er (demangle_string_literal E) (Parser.demangle_string_literal E).
Proof. unfold demangle_string_literal, Parser.demangle_string_literal. erz. Qed.
#[export] Hint Resolve er_demangle_string_literal : er.
Lemma er_rtti_type_descriptor E K K' : erk K K' -> er (rtti_type_descriptor E K) (Parser.rtti_type_descriptor E K').
Proof. intros HK. unfold rtti_type_descriptor, Parser.rtti_type_descriptor. erz. Qed.
#[export] Hint Resolve er_rtti_type_descriptor : er.
Lemma er_demangle_special_intrinsic E K K' : erk K K' -> er (demangle_special_intrinsic E K) (Parser.demangle_special_intrinsic E K').
Proof. intros HK. unfold demangle_special_intrinsic, Parser.demangle_special_intrinsic. erz. Qed.
#[export] Hint Resolve er_demangle_special_intrinsic : er.
Lemma er_demangle_md5_name E : er (demangle_md5_name E) (Parser.demangle_md5_name E).
Proof. unfold demangle_md5_name, Parser.demangle_md5_name. erz. Qed.
#[export] Hint Resolve er_demangle_md5_name : er.
Lemma er_demangle_typeinfo_name E K K' : erk K K' -> er (demangle_typeinfo_name E K) (Parser.demangle_typeinfo_name E K').
Proof. intros HK. unfold demangle_typeinfo_name, Parser.demangle_typeinfo_name. erz. Qed.
#[export] Hint Resolve er_demangle_typeinfo_name : er.
Lemma er_do_parse E K K' : erk K K' -> er (do_parse E K) (Parser.do_parse E K').
Proof. intros HK. unfold do_parse, Parser.do_parse. erz. Qed.
#[export] Hint Resolve er_do_parse : er.

Lemma er_knot_of E fuel : erk (knot_of E fuel) (Parser.knot_of E fuel).
Proof.
  induction fuel as [|fuel IH]; cbn [knot_of Parser.knot_of]; (split; [|split]); cbn [k_parse k_type k_tinst Parser.k_parse Parser.k_type Parser.k_tinst]; intros; eauto with er.
Qed.
Lemma metered_parse_with E fuel s : fst (parse_with E fuel s) = Parser.parse_with E fuel s.
Proof. apply er_knot_of. Qed.
Lemma metered_parse E s : fst (parse E s) = Parser.parse E s.
Proof. apply metered_parse_with. Qed.
