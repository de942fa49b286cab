(** How many renderings are made while parsing: each is paid for by a node of its own.  And the node
    graph has at most as many nodes and handles as there were operations.  Proof infrastructure for
    [Work]. *)
From Verif Require Import Parser Wf Lex Cost Effort Meter.

(** The nodes that may still be allocated, plus one. *)
Definition left_ (E : env) (s : st) : Z := (Z.of_N (e_nodes E) + 1 - Z.of_nat (length (s_store s)))%Z.
Definition count (c : meter) : Z := Z.of_nat (length (shown c)).
(** Nodes of a graph, and handles in its node arrays. *)
Definition cells (sg : store) : nat := fold_right (fun n k => S (slots n) + k) 0 sg.
(** Given [p] renderings to spare, all renderings of [m] are paid for by nodes; a result [a] leaves
    [q a] to spare. *)
Definition nd {A} (E : env) (p : Z) (m : M A) (q : A -> Z) : Prop := forall s,
  (1 <= left_ E s)%Z ->
  let (r, c) := m s in
  match r with
  | Ok (a, s') => (1 <= left_ E s')%Z /\ (count c + left_ E s' + q a <= left_ E s + p)%Z /\
                  cells (s_store s') <= cells (s_store s) + ops c
  | _ => (count c <= left_ E s + p)%Z
  end.
Notation keep n := (fun _ => n%Z).

Section Rules.
  Context {E : env}.
  Ltac go := unfold count; cbn [m_zero m_add m_one shown ops length app]; rewrite ?app_length; lia.
  Lemma nd_weak {A} p0 (m : M A) q0 p q : nd E p0 m q0 -> (p0 <= p)%Z -> (forall a, q a <= q0 a + (p - p0))%Z -> nd E p m q.
  Proof.
    intros H Hp Hq s Hs. specialize (H s Hs). destruct (m s) as [[[a s']|e| |] c]; try lia.
    destruct H as (H3 & H6 & H7). split; [exact H3|]. specialize (Hq a); lia.
  Qed.
  Lemma nd_bind {A B} p0 (m : M A) q0 (f : A -> M B) p q : nd E p0 m q0 -> (p0 <= p)%Z ->
    (forall a, nd E (p - p0 + q0 a) (f a) q) -> nd E p (bind m f) q.
  Proof.
    intros H Hp Hf s Hs. specialize (H s Hs). unfold bind. destruct (m s) as [[[a s']|e| |] c]; try lia.
    destruct H as (H3 & H6 & H7). specialize (Hf a s' H3). destruct (f a s') as [r c'].
    unfold count in *. cbn [m_add m_one shown ops app]. rewrite app_length.
    destruct r as [[b s2]|e| |]; try lia.
  Qed.
  Lemma nd_ret {A} (a : A) p q : (q a <= p)%Z -> nd E p (ret a) q.
  Proof. intros H s Hs. unfold ret. split; [exact Hs|]. go. Qed.
  Lemma nd_fail {A} e p (q : A -> Z) : (0 <= p)%Z -> nd E p (fail e) q.
  Proof. intros H s Hs. unfold fail. go. Qed.
  Lemma nd_panic {A} p (q : A -> Z) : (0 <= p)%Z -> nd E p panic q.
  Proof. intros H s Hs. unfold panic. go. Qed.
  Lemma nd_nofuel {A} p (q : A -> Z) : (0 <= p)%Z -> nd E p nofuel q.
  Proof. intros H s Hs. unfold nofuel. go. Qed.
  Lemma nd_assoc {A B C} p (m : M A) (g : A -> M B) (f : B -> M C) q : nd E p (bind m (fun x => bind (g x) f)) q -> nd E p (bind (bind m g) f) q.
  Proof.
    intros H s Hs. specialize (H s Hs). unfold bind in *. destruct (m s) as [[[a s']|e| |] c]; try exact H.
    destruct (g a s') as [[[b s2]|e| |] c']; cbn [m_add m_one shown ops app] in *; unfold count in *; cbn [m_add m_one shown ops app] in *; try exact H.
    destruct (f b s2) as [r c2]; cbn [m_add m_one shown ops app] in *. rewrite <- !app_assoc in *. destruct r as [[d s3]|e| |]; lia.
  Qed.
  Lemma nd_ret_bind {A B} (a : A) (f : A -> M B) p q : nd E p (f a) q -> nd E p (bind (ret a) f) q.
  Proof. intros H s Hs. specialize (H s Hs). unfold bind, ret. destruct (f a s) as [r c].
    unfold count in *. cbn [m_add m_zero m_one shown ops app] in *. destruct r as [[d s3]|e| |]; lia. Qed.
  Lemma nd_fail_bind {A B} e (f : A -> M B) p q : (0 <= p)%Z -> nd E p (bind (fail e) f) q.
  Proof. apply nd_fail. Qed.
  Lemma nd_panic_bind {A B} (f : A -> M B) p q : (0 <= p)%Z -> nd E p (bind panic f) q.
  Proof. apply nd_panic. Qed.
  Lemma nd_ok_or {A} (o : option A) e p q : (0 <= p)%Z -> (forall a, o = Some a -> (q a <= p)%Z) -> nd E p (ok_or o e) q.
  Proof. intros Hp H. destruct o; cbn [ok_or]; [apply nd_ret; auto|apply nd_fail, Hp]. Qed.
  Lemma nd_ok_or_bind {A B} (o : option A) e (f : A -> M B) p q : (0 <= p)%Z -> (forall a, o = Some a -> nd E p (f a) q) -> nd E p (bind (ok_or o e) f) q.
  Proof. intros Hp H. destruct o; cbn [ok_or]; [apply nd_ret_bind, H; reflexivity|apply nd_fail_bind, Hp]. Qed.

  (** *** Primitives *)
  Lemma nd_op_n {A} k (f : st -> res (A * st)) q : (forall s, (1 <= left_ E s)%Z -> match f s with
      Ok (a, s') => (1 <= left_ E s')%Z /\ (left_ E s' + q a <= left_ E s)%Z /\ cells (s_store s') <= cells (s_store s) + k | _ => True end) -> nd E 0 (op_n k f) q.
  Proof.
    intros H s Hs. specialize (H s Hs). unfold op_n. unfold count. cbn [shown ops length].
    destruct (f s) as [[a s']|e| |]; lia.
  Qed.
  Lemma nd_same {A} (f : st -> res (A * st)) : (forall s, match f s with Ok (a, s') => map slots (s_store s') = map slots (s_store s) | _ => True end) -> nd E 0 (op f) (keep 0).
  Proof.
    intros H. apply (nd_op_n 1). intros s Hs. specialize (H s). destruct (f s) as [[a s']|e| |]; auto.
    assert (Hl : length (s_store s') = length (s_store s)) by (rewrite <- (map_length slots), H; apply map_length).
    assert (Hc : forall sg, cells sg = fold_right (fun n k => S n + k) 0 (map slots sg)).
    { induction sg as [|n sg IH]; cbn [cells map fold_right]; [reflexivity|]. unfold cells in IH. rewrite IH. reflexivity. }
    unfold left_ in *. rewrite Hl, !Hc, H. lia.
  Qed.
  Lemma nd_get : nd E 0 get (keep 0).
  Proof. apply nd_same. intros s. reflexivity. Qed.
  Lemma nd_scan n : nd E 0 (scan n) (keep 0).
  Proof. intros s Hs. unfold scan, count. cbn [shown ops length]. split; [exact Hs|]. lia. Qed.
  Lemma nd_text : nd E 0 text (keep 0).
  Proof. apply nd_same. intros s. reflexivity. Qed.
  Lemma nd_len : nd E 0 len_chars (keep 0).
  Proof. apply nd_same. intros s. reflexivity. Qed.
  Lemma nd_res k h : nd E 0 (res_ k h) (keep 0).
  Proof. apply nd_same. intros s. unfold Parser.res_. destruct (resolve _ _ _); [reflexivity|exact I]. Qed.
  Lemma nd_run w b : nd E 0 (run_w w b) (keep 0).
  Proof. apply nd_same. intros s. unfold Parser.run_w. destruct (w b) as [b' [[]|e| |]]; auto. Qed.
  Lemma nd_update f : (forall s, s_store (f s) = s_store s) -> nd E 0 (update f) (keep 0).
  Proof. intros H. apply nd_same. intros s. cbv beta iota zeta. rewrite H. reflexivity. Qed.
  (** A node allocated pays for one rendering. *)
  Lemma cells_app sg n : cells (sg ++ [n]) = cells sg + S (slots n).
  Proof. unfold cells. induction sg as [|m sg IH]; cbn [app fold_right]; [lia|]. rewrite IH. lia. Qed.
  Lemma nd_intern n : nd E 0 (intern E n) (keep 1).
  Proof.
    apply nd_op_n. intros s Hs. unfold Parser.intern. destruct (N.ltb_spec (e_nodes E) (N.of_nat (length (s_store s) + 1))) as [Hl|Hl]; [exact I|].
    unfold left_, set_store. cbn [s_store]. rewrite cells_app, app_length. cbn [length]. unfold left_ in Hs. lia.
  Qed.
  Lemma nd_modify k h f : (forall n, slots (f n) = slots n) -> nd E 0 (modify k h f) (keep 0).
  Proof.
    intros Hf. apply nd_same. intros s. unfold Parser.modify. destruct (resolve (s_store s) k h) as [n|] eqn:Hr; [|exact I].
    assert (Hn : nth_error (s_store s) h = Some n). { unfold resolve in Hr. destruct (nth_error (s_store s) h) as [m|]; [|discriminate]. destruct (hkind k m); [injection Hr as ->; reflexivity|discriminate]. }
    unfold set_store. cbn [s_store]. clear Hr. specialize (Hf n). revert h Hn. induction (s_store s) as [|m sg IH]; intros [|h] Hn; try discriminate Hn; cbn [nth_error] in Hn.
    - injection Hn as ->. cbn [upd map]. rewrite Hf. reflexivity.
    - cbn [upd map]. f_equal. apply IH. exact Hn.
  Qed.
  Lemma nd_render w : nd E 1 (render E w) (keep 0).
  Proof.
    unfold render. eapply (nd_bind 1 _ (keep 0)).
    - intros s Hs. unfold show_event. split; [exact Hs|]. unfold count. cbn [shown ops length]. lia.
    - lia.
    - intros _. eapply nd_bind; [apply nd_get|lia|]. intros s. eapply nd_bind; [apply nd_run|lia|]. intros b.
      unfold take_text. apply nd_ok_or; [lia|]. intros; lia.
  Qed.
  Lemma nd_lift {A} (f : mstring -> mres A) : nd E 0 (lift f) (keep 0).
  Proof. apply nd_same. intros s. unfold Parser.lift. destruct (f (s_ms s)) as [[o m']|e| |]; try exact I. reflexivity. Qed.
  Lemma nd_eatif f : nd E 0 (eat_if f) (keep 0).
  Proof. apply nd_lift. Qed.
  Lemma nd_next e : nd E 0 (next_char e) (keep 0).
  Proof. unfold next_char. eapply nd_bind; [apply nd_lift|lia|]. intros [c|]; cbn [ok_or]; [apply nd_ret; lia|apply nd_fail; lia]. Qed.
  Lemma nd_eat c : nd E 0 (eat_char c) (keep 0).
  Proof. unfold eat_char. eapply nd_bind; [apply nd_lift|lia|]. intros x; apply nd_ret; lia. Qed.
  Lemma nd_eats p : nd E 0 (eat_str p) (keep 0).
  Proof. unfold eat_str. eapply nd_bind; [apply nd_lift|lia|]. intros x; apply nd_ret; lia. Qed.
  Lemma nd_expect c e : nd E 0 (expect_char c e) (keep 0).
  Proof. unfold expect_char. eapply nd_bind; [apply nd_eat|lia|]. intros []; [apply nd_ret; lia|apply nd_fail; lia]. Qed.
  Lemma nd_expects p e : nd E 0 (expect_str p e) (keep 0).
  Proof. unfold expect_str. eapply nd_bind; [apply nd_eats|lia|]. intros []; [apply nd_ret; lia|apply nd_fail; lia]. Qed.
  Lemma nd_first l : nd E 0 (eat_first l) (keep 0).
  Proof.
    induction l as [|p l IH]; cbn [eat_first]; [apply nd_ret; lia|].
    eapply nd_bind; [apply nd_eats|lia|]. intros []; [apply nd_ret; lia|]. exact IH.
  Qed.
  Lemma nd_special l : nd E 0 (consume_special l) (keep 0).
  Proof.
    induction l as [|[p k] l IH]; cbn [consume_special]; [apply nd_ret; lia|].
    eapply nd_bind; [apply nd_eats|lia|]. intros []; [apply nd_ret; lia|]. exact IH.
  Qed.
End Rules.

(** ** Functions *)
Create HintDb mn.
#[export] Hint Extern 1 (forall n, slots (_ n) = slots n) => intros []; reflexivity : mn.
#[export] Hint Resolve nd_scan nd_get nd_text nd_len nd_res nd_run nd_eatif nd_next nd_eat nd_eats nd_expect nd_expects nd_first nd_special nd_lift nd_modify nd_intern : mn.
Ltac zz := cbv beta iota; lia.
Ltac updn := apply nd_update; intros ?s; repeat match goal with |- context [if ?b then _ else _] => destruct b end; reflexivity.
Ltac n1 :=
  lazymatch goal with
  | |- nd _ _ (bind (bind _ _) _) _ => apply nd_assoc
  | |- nd _ _ (bind (ret _) _) _ => apply nd_ret_bind
  | |- nd _ _ (bind (fail _) _) _ => apply nd_fail_bind; zz
  | |- nd _ _ (bind panic _) _ => apply nd_panic_bind; zz
  | |- nd _ _ (bind (ok_or _ _) _) _ => apply nd_ok_or_bind; [zz|let H := fresh in intros ? H; try discriminate H]
  | |- nd _ _ (bind (if ?b then _ else _) _) _ => destruct b
  | |- nd _ _ (bind (match ?x with _ => _ end) _) _ => destruct x
  | |- nd _ _ (bind (let x := _ in _) _) _ => cbv zeta
  | |- nd _ _ (bind (update _) _) _ => eapply nd_bind; [updn|zz|intros ?]
  | |- nd _ _ (bind _ _) _ => eapply nd_bind; [solve [eauto 3 with mn]|zz|intros ?]
  | |- nd _ _ (ret _) _ => apply nd_ret; zz
  | |- nd _ _ (fail _) _ => apply nd_fail; zz
  | |- nd _ _ panic _ => apply nd_panic; zz
  | |- nd _ _ nofuel _ => apply nd_nofuel; zz
  | |- nd _ _ (ok_or _ _) _ => apply nd_ok_or; [zz|intros; zz]
  | |- nd _ _ (let x := _ in _) _ => cbv zeta
  | |- nd _ _ (if ?b then _ else _) _ => destruct b
  | |- nd _ _ (match ?x with _ => _ end) _ => destruct x
  | |- nd _ _ (update _) _ => eapply nd_weak; [updn|zz|intros ?; zz]
  | |- nd _ _ _ _ => eapply nd_weak; [solve [eauto 3 with mn]|zz|intros ?; zz]
  end; cbv beta iota.
Ltac ss := repeat n1.
Lemma n_ext E : nd E 0 pointer_ext_qualifiers (keep 0).
Proof. unfold pointer_ext_qualifiers. ss. Qed.
Lemma n_loop E fuel c n : nd E 0 (number_loop fuel c n) (keep 0).
Proof. revert c n. induction fuel as [|fuel IH]; intros c n; cbn [number_loop]; ss. Qed.
#[export] Hint Resolve n_ext n_loop : mn.
Lemma n_number E : nd E 0 demangle_number (keep 0).
Proof. unfold demangle_number. ss. Qed.
#[export] Hint Resolve n_number : mn.
Lemma n_unsigned E : nd E 0 demangle_unsigned (keep 0).
Proof. unfold demangle_unsigned. ss. Qed.
Lemma n_signed E : nd E 0 demangle_signed (keep 0).
Proof. unfold demangle_signed. ss. Qed.
Lemma n_quals E : nd E 0 demangle_qualifiers (keep 0).
Proof. unfold demangle_qualifiers. ss. Qed.
Lemma n_cv E : nd E 0 demangle_pointer_cv_qualifiers (keep 0).
Proof. unfold demangle_pointer_cv_qualifiers. ss. Qed.
Lemma n_ref E : nd E 0 demangle_function_ref_qualifier (keep 0).
Proof. unfold demangle_function_ref_qualifier. ss. Qed.
Lemma n_cc E : nd E 0 demangle_calling_convention (keep 0).
Proof. unfold demangle_calling_convention. ss. Qed.
Lemma n_sc E : nd E 0 demangle_variable_storage_class (keep 0).
Proof. unfold demangle_variable_storage_class. ss. Qed.
Lemma n_throw E : nd E 0 demangle_throw_specification (keep 0).
Proof. unfold demangle_throw_specification. ss. Qed.
Lemma n_class E : nd E 0 demangle_function_class (keep 0).
Proof. unfold demangle_function_class. ss. Qed.
Lemma n_u32 E n e : nd E 0 (to_u32 n e) (keep 0).
Proof. unfold to_u32. ss. Qed.
Lemma n_i32 E n e : nd E 0 (to_i32 n e) (keep 0).
Proof. unfold to_i32. ss. Qed.
Lemma n_prim E : nd E 0 (demangle_primitive_type E) (keep 0).
Proof. unfold demangle_primitive_type, demangle_primitive_kind. ss. Qed.
Lemma n_char E : nd E 0 demangle_char_literal (keep 0).
Proof. unfold demangle_char_literal. ss. Qed.
#[export] Hint Resolve n_unsigned n_signed n_quals n_cv n_ref n_cc n_sc n_throw n_class n_u32 n_i32 n_prim n_char : mn.
Lemma n_wchar E : nd E 0 demangle_wchar_literal (keep 0).
Proof. unfold demangle_wchar_literal. ss. Qed.
#[export] Hint Resolve n_wchar : mn.
Lemma n_uid E qn : nd E 0 (unqualified_identifier qn) (keep 0).
Proof. unfold unqualified_identifier. ss. Qed.
Lemma n_syn_id E id : nd E 0 (synthesize_from_id E id) (keep 0).
Proof. unfold synthesize_from_id. ss. Qed.
#[export] Hint Resolve n_uid n_syn_id : mn.
Lemma n_syn E n : nd E 0 (synthesize_from_name E n) (keep 0).
Proof. unfold synthesize_from_name. ss. Qed.
#[export] Hint Resolve n_syn : mn.
Lemma n_resolve E l : nd E 0 (resolve_names l) (keep 0).
Proof. induction l as [|h l IH]; cbn [resolve_names]; ss. Qed.
#[export] Hint Resolve n_resolve : mn.
Lemma n_mem E x : nd E 0 (memorize_string E x) (keep 0).
Proof.
  unfold memorize_string. ss.
Qed.
#[export] Hint Resolve n_mem : mn.
Lemma n_memid E h : nd E 1 (memorize_identifier E h) (keep 0).
Proof.
  unfold memorize_identifier. eapply nd_bind; [apply nd_render|lia|]. intros t. ss.
Qed.
#[export] Hint Resolve n_memid : mn.

Section Knot.
  Variable E : env.
  Variable K : knot.
  Hypothesis Hparse : nd E 0 (k_parse K) (keep 1).
  Hypothesis Htype : forall m, nd E 0 (k_type K m) (keep 0).
  Hypothesis Htinst : forall b, nd E 0 (k_tinst K b) (keep 0).
  Hint Resolve Hparse Htype Htinst : mn.
  Lemma n_string (m : bool) : nd E 0 (demangle_simple_string E m) (keep 0).
  Proof. unfold demangle_simple_string. ss. Qed.
  Hint Resolve n_string : mn.
  Lemma n_sname m : nd E 0 (demangle_simple_name E m) (keep 0).
  Proof. unfold demangle_simple_name. ss. Qed.
  Lemma n_backref : nd E 0 demangle_back_ref_name (keep 0).
  Proof.
    unfold demangle_back_ref_name. ss.
  Qed.
  Lemma n_anon : nd E 0 (demangle_anonymous_namespace_name E) (keep 0).
  Proof. unfold demangle_anonymous_namespace_name. ss. Qed.
  Lemma n_local : nd E 0 (demangle_locally_scoped_name_piece E K) (keep 0).
  Proof.
    unfold demangle_locally_scoped_name_piece. do 6 n1.
    all: try (eapply nd_bind; [apply nd_render|zz|intros ?]).
    all: ss.
  Qed.
  Hint Resolve n_sname n_backref n_anon n_local : mn.
  Lemma n_piece : nd E 0 (demangle_name_scope_piece E K) (keep 0).
  Proof. unfold demangle_name_scope_piece. ss. Qed.
  Hint Resolve n_piece : mn.
  Lemma n_scopes fuel acc : nd E 0 (scope_loop E K fuel acc) (keep 0).
  Proof. revert acc. induction fuel as [|fuel IH]; intros acc; cbn [scope_loop]; ss. Qed.
  Hint Resolve n_scopes : mn.
  Lemma n_chain id : nd E 0 (demangle_name_scope_chain E K id) (keep 0).
  Proof. unfold demangle_name_scope_chain. ss. Qed.
  Hint Resolve n_chain : mn.
  Lemma n_intrinsic c g : nd E 0 (translate_intrinsic c g) (keep 0).
  Proof. unfold translate_intrinsic. ss. Qed.
  Hint Resolve n_intrinsic : mn.
  Lemma n_group g : nd E 0 (demangle_function_identifier_code_group E g) (keep 0).
  Proof. unfold demangle_function_identifier_code_group. ss. Qed.
  Hint Resolve n_group : mn.
  Lemma n_code : nd E 0 (demangle_function_identifier_code E) (keep 0).
  Proof. unfold demangle_function_identifier_code. ss. Qed.
  Hint Resolve n_code : mn.
  Lemma n_utn m : nd E 0 (demangle_unqualified_type_name E K m) (keep 0).
  Proof. unfold demangle_unqualified_type_name. ss. Qed.
  Lemma n_usn b : nd E 0 (demangle_unqualified_symbol_name E K b) (keep 0).
  Proof. unfold demangle_unqualified_symbol_name. ss. Qed.
  Hint Resolve n_utn n_usn : mn.
  Lemma n_fqtn : nd E 0 (demangle_fully_qualified_type_name E K) (keep 0).
  Proof. unfold demangle_fully_qualified_type_name. ss. Qed.
  Lemma n_fqsn : nd E 0 (demangle_fully_qualified_symbol_name E K) (keep 0).
  Proof. unfold demangle_fully_qualified_symbol_name. ss. Qed.
  Hint Resolve n_fqtn n_fqsn : mn.
  Lemma n_custom : nd E 0 (demangle_custom_type E K) (keep 0).
  Proof. unfold demangle_custom_type. ss. Qed.
  Lemma n_tag : nd E 0 (demangle_class_type E K) (keep 0).
  Proof. unfold demangle_class_type. ss. Qed.
  Lemma n_params fuel acc : nd E 0 (params_loop K fuel acc) (keep 0).
  Proof. revert acc. induction fuel as [|fuel IH]; intros acc; cbn [params_loop]; ss. Qed.
  Hint Resolve n_custom n_tag n_params : mn.
  Lemma n_plist : nd E 0 (demangle_function_parameter_list E K) (keep 0).
  Proof. unfold demangle_function_parameter_list. ss. Qed.
  Hint Resolve n_plist : mn.
  Lemma n_fn b : nd E 0 (demangle_function_type E K b) (keep 0).
  Proof. unfold demangle_function_type. ss. Qed.
  Hint Resolve n_fn : mn.
  Lemma n_ptr : nd E 0 (demangle_pointer_type E K) (keep 0).
  Proof. unfold demangle_pointer_type. ss. Qed.
  Lemma n_mptr : nd E 0 (demangle_member_pointer_type E K) (keep 0).
  Proof. unfold demangle_member_pointer_type. ss. Qed.
  Lemma n_dims fuel r acc : nd E 0 (dims_loop E fuel r acc) (keep 0).
  Proof. revert r acc. induction fuel as [|fuel IH]; intros r acc; cbn [dims_loop]; ss. Qed.
  Hint Resolve n_ptr n_mptr n_dims : mn.
  Lemma n_arr : nd E 0 (demangle_array_type E K) (keep 0).
  Proof. unfold demangle_array_type. ss. Qed.
  Hint Resolve n_arr : mn.
  Lemma n_type m : nd E 0 (demangle_type E K m) (keep 0).
  Proof. unfold demangle_type. ss. Qed.
  Lemma n_offsets n : nd E 0 (read_offsets n) (keep 0).
  Proof. induction n as [|n IH]; cbn [read_offsets]; ss. Qed.
  Lemma n_tsym : nd E 0 (template_symbol E K) (keep 0).
  Proof. unfold template_symbol. ss. Qed.
  Hint Resolve n_offsets n_tsym : mn.
  Lemma n_arg : nd E 0 (template_arg E K) (keep 0).
  Proof. unfold template_arg. ss. Qed.
  Hint Resolve n_arg : mn.
  Lemma n_args fuel acc : nd E 0 (targs_loop E K fuel acc) (keep 0).
  Proof. revert acc. induction fuel as [|fuel IH]; intros acc; cbn [targs_loop]; ss. Qed.
  Hint Resolve n_args : mn.
  Lemma n_alist : nd E 0 (demangle_template_parameter_list E K) (keep 1).
  Proof. unfold demangle_template_parameter_list. ss. Qed.
  Hint Resolve n_alist : mn.
  Lemma n_tinst b : nd E 0 (demangle_template_instantiation_name E K b) (keep 0).
  Proof. unfold demangle_template_instantiation_name. ss. Qed.

  (** ** Symbols *)
  Lemma n_var sc : nd E 0 (demangle_variable_encoding E K sc) (keep 1).
  Proof. unfold demangle_variable_encoding. ss. Qed.
  Lemma n_adjust fc : nd E 0 (this_adjust fc) (keep 0).
  Proof. unfold this_adjust. ss. Qed.
  Hint Resolve n_adjust : mn.
  Lemma n_fenc : nd E 0 (demangle_function_encoding E K) (keep 1).
  Proof. unfold demangle_function_encoding. ss. Qed.
  Hint Resolve n_var n_fenc : mn.
  Lemma n_enc h : nd E 0 (demangle_encoded_symbol E K h) (keep 1).
  Proof. unfold demangle_encoded_symbol. ss. Qed.
  Hint Resolve n_enc : mn.
  Lemma n_decl : nd E 0 (demangle_declarator E K) (keep 1).
  Proof. unfold demangle_declarator. ss. Qed.
  Hint Resolve n_decl : mn.
  Lemma n_stab k : nd E 0 (demangle_special_table_symbol_node E K k) (keep 1).
  Proof. unfold demangle_special_table_symbol_node. ss. Qed.
  Lemma n_guard b : nd E 0 (demangle_local_static_guard E K b) (keep 1).
  Proof. unfold demangle_local_static_guard. ss. Qed.
  Lemma n_untyped n : nd E 0 (demangle_untyped_variable E K n) (keep 1).
  Proof. unfold demangle_untyped_variable. ss. Qed.
  Lemma n_base : nd E 0 (demangle_rtti_base_class_descriptor_node E K) (keep 1).
  Proof. unfold demangle_rtti_base_class_descriptor_node. ss. Qed.
  Lemma n_stub b : nd E 0 (demangle_init_fini_stub E K b) (keep 1).
  Proof. unfold demangle_init_fini_stub. ss. Qed.
  Lemma n_vcall : nd E 0 (demangle_vcall_thunk_node E K) (keep 1).
  Proof. unfold demangle_vcall_thunk_node. ss. Qed.
  Lemma n_wide fuel len tr ob : nd E 0 (wide_loop E fuel len tr ob) (keep 0).
  Proof. revert len ob. induction fuel as [|fuel IH]; intros len ob; cbn [wide_loop]; ss. Qed.
  Lemma n_narrow fuel acc : nd E 0 (narrow_loop fuel acc) (keep 0).
  Proof. revert acc. induction fuel as [|fuel IH]; intros acc; cbn [narrow_loop]; ss. Qed.
  Lemma n_nout l sz num i n tr ob : nd E 0 (narrow_out E l sz num i n tr ob) (keep 0).
  Proof. revert i ob. induction n as [|n IH]; intros i ob; cbn [narrow_out]; ss. Qed.
  Hint Resolve n_stab n_guard n_untyped n_base n_stub n_vcall n_wide n_narrow n_nout : mn.
  Lemma n_strlit : nd E 0 (demangle_string_literal E) (keep 1).
  Proof. unfold demangle_string_literal, take_text. ss. Qed.
  Lemma n_rtd : nd E 0 (rtti_type_descriptor E K) (keep 1).
  Proof. unfold rtti_type_descriptor. ss. Qed.
  Hint Resolve n_strlit n_rtd : mn.
  Lemma n_spec : nd E 0 (demangle_special_intrinsic E K) (fun o => match o with Some _ => 1%Z | None => 0%Z end).
  Proof. unfold demangle_special_intrinsic. ss. Qed.
  Lemma n_md5 : nd E 0 (demangle_md5_name E) (keep 1).
  Proof. unfold demangle_md5_name. ss. Qed.
  Lemma n_typeinfo : nd E 0 (demangle_typeinfo_name E K) (keep 1).
  Proof. unfold demangle_typeinfo_name. ss. Qed.
  Hint Resolve n_spec n_md5 n_typeinfo : mn.
  Lemma n_parse : nd E 0 (do_parse E K) (keep 1).
  Proof. unfold do_parse. ss. Qed.
End Knot.
Lemma n_knot E fuel : nd E 0 (k_parse (knot_of E fuel)) (keep 1) /\ (forall m, nd E 0 (k_type (knot_of E fuel) m) (keep 0)) /\
  (forall b, nd E 0 (k_tinst (knot_of E fuel) b) (keep 0)).
Proof.
  induction fuel as [|fuel (H1 & H2 & H3)]; cbn [knot_of k_parse k_type k_tinst].
  - split; [|split; intros]; apply nd_nofuel; lia.
  - split; [|split; intros]; [apply n_parse|apply n_type|apply n_tinst]; assumption.
Qed.
