(** Two runs of the demangler side by side: a congruence over every parser and printer
    function.  [bad] results of the first run are unconstrained; otherwise the runs agree.
    Used for monotonicity in the recursion budget and the resource limits, and for
    independence from flags, allocation policy and buffer capacity.  Proof infrastructure. *)
From Verif Require Import Parser Lex.

Section Rel.
  (** Results of the first run that lift the obligation to agree. *)
  Variable bad_e : error -> Prop.
  Variable bad_f : Prop.
  Definition bad {A} (r : res A) : Prop :=
    match r with Err e => bad_e e | Fuel => bad_f | _ => False end.

  (** Related results. *)
  Definition rr {A} (RA : A -> A -> Prop) (x y : res (A * st)) : Prop :=
    bad x \/
    match x, y with
    | Ok (a, s), Ok (b, s') => RA a b /\ s = s'
    | Err e, Err e' => e = e'
    | Panic, Panic => True
    | Fuel, Fuel => True
    | _, _ => False
    end.
  Definition rel {A} (RA : A -> A -> Prop) (m m' : M A) : Prop := forall s, rr RA (m s) (m' s).
  Notation "m ~~ m'" := (rel eq m m') (at level 70).

  Lemma rel_refl {A} (m : M A) : m ~~ m.
  Proof. intros s. right. destruct (m s) as [[a s']|e| |]; auto. Qed.
  Lemma rel_eq {A} (m m' : M A) : (forall s, m s = m' s) -> m ~~ m'.
  Proof. intros H s. rewrite H. apply rel_refl. Qed.
  Lemma rel_bind {A B} (RA : A -> A -> Prop) (RB : B -> B -> Prop) (m m' : M A) (f f' : A -> M B) :
    rel RA m m' -> (forall a b, RA a b -> rel RB (f a) (f' b)) -> rel RB (bind m f) (bind m' f').
  Proof.
    intros Hm Hf s. unfold bind. specialize (Hm s). destruct Hm as [Hb|Hm].
    - left. destruct (m s) as [[a s1]|e| |]; try contradiction; exact Hb.
    - destruct (m s) as [[a s1]|e| |], (m' s) as [[b s2]|e'| |]; try contradiction.
      + destruct Hm as [Hab ->]. apply Hf. assumption.
      + subst. right; reflexivity.
      + right; exact I.
      + right; exact I.
  Qed.
  Lemma rel_bind_eq {A B} (RB : B -> B -> Prop) (m m' : M A) (f f' : A -> M B) :
    m ~~ m' -> (forall a, rel RB (f a) (f' a)) -> rel RB (bind m f) (bind m' f').
  Proof. intros Hm Hf. eapply rel_bind; [exact Hm|]. intros a b ->. apply Hf. Qed.
  Lemma rel_if {A} (RA : A -> A -> Prop) (b : bool) (m m' k k' : M A) :
    (b = true -> rel RA m m') -> (b = false -> rel RA k k') -> rel RA (if b then m else k) (if b then m' else k').
  Proof. intros H1 H2. destruct b; auto. Qed.

  (** ** Writers: the buffers may differ in capacity. *)
  Definition beq (b b' : buf) : Prop := b_bytes b = b_bytes b'.
  Definition wr (x y : buf * res unit) : Prop :=
    bad (snd x) \/ (snd x = snd y /\ (snd x = Ok tt -> beq (fst x) (fst y))).
  Definition relw (w w' : W) : Prop := forall b b', beq b b' -> wr (w b) (w' b').

  Lemma relw_ret : relw w_ret w_ret.
  Proof. intros b b' H. right. auto. Qed.
  Lemma relw_panic : relw w_panic w_panic.
  Proof. intros b b' H. right. split; [reflexivity|discriminate]. Qed.
  Lemma relw_fuel : relw w_fuel w_fuel.
  Proof. intros b b' H. right. split; [reflexivity|discriminate]. Qed.
  Lemma relw_seq m m' k k' : relw m m' -> relw k k' -> relw (m >> k) (m' >> k').
  Proof.
    intros Hm Hk b b' Hb. specialize (Hm b b' Hb). unfold w_seq.
    destruct (m b) as [c r], (m' b') as [c' r']. destruct Hm as [Hbad|[Heq Hbe]]; cbn [fst snd] in *.
    - left. destruct r as [[]|e| |]; try contradiction; exact Hbad.
    - subst r'. destruct r as [[]|e| |]; try (right; split; [reflexivity|discriminate]).
      apply Hk, Hbe. reflexivity.
  Qed.
  Lemma relw_if c m m' : (c = true -> relw m m') -> relw (w_if c m) (w_if c m').
  Proof. intros H. destruct c; [apply H; reflexivity|apply relw_ret]. Qed.
  Lemma relw_ite (c : bool) m m' k k' : (c = true -> relw m m') -> (c = false -> relw k k') ->
    relw (if c then m else k) (if c then m' else k').
  Proof. intros H1 H2. destruct c; auto. Qed.
  Lemma relw_opt {A} (o : option A) f f' : (forall a, relw (f a) (f' a)) -> relw (w_opt o f) (w_opt o f').
  Proof. intros H. destruct o; [apply H|apply relw_ret]. Qed.
  Lemma relw_last (f f' : option N -> W) : (forall o, relw (f o) (f' o)) ->
    relw (fun b => f (last_char b) b) (fun b => f' (last_char b) b).
  Proof.
    intros H b b' Hb. assert (Heq : last_char b = last_char b') by (unfold last_char; rewrite Hb; reflexivity).
    rewrite Heq. apply H. assumption.
  Qed.

  (** ** The parser *)
  Section Parser.
    Variables E E' : env.
    Variables K K' : knot.
    Hypothesis Hintern : forall n, intern E n ~~ intern E' n.
    Hypothesis Hstr : forall t, relw (w_str E t) (w_str E' t).
    Hypothesis Hout : forall sg k h, relw (output E sg k h) (output E' sg k h).
    Hypothesis HKp : k_parse K ~~ k_parse K'.
    Hypothesis HKt : forall m, k_type K m ~~ k_type K' m.
    Hypothesis HKi : forall b, k_tinst K b ~~ k_tinst K' b.

    Lemma rel_run_w w w' b b' : relw w w' -> beq b b' -> rel beq (run_w w b) (run_w w' b').
    Proof.
      intros Hw Hb s. unfold run_w. specialize (Hw b b' Hb).
      destruct (w b) as [c r], (w' b') as [c' r']. destruct Hw as [Hbad|[Heq Hbe]]; cbn [fst snd] in *.
      - left. destruct r as [[]|e| |]; try contradiction; exact Hbad.
      - subst r'. right. destruct r as [[]|e| |]; auto.
    Qed.
    Lemma rel_take b b' : beq b b' -> take_text b ~~ take_text b'.
    Proof. intros H. unfold take_text. rewrite H. apply rel_refl. Qed.
    Lemma rel_render w w' : (forall sg, relw (w sg) (w' sg)) -> render w ~~ render w'.
    Proof.
      intros Hw. unfold render. apply rel_bind_eq; [apply rel_refl|]. intros s.
      eapply rel_bind; [apply rel_run_w; [apply Hw|reflexivity]|]. intros b b' Hb. apply rel_take; assumption.
    Qed.

    Hint Resolve rel_refl : rel.
    Ltac rl1 :=
      match goal with
      | |- ?m ~~ ?m' => constr_eq m m'; apply rel_refl
      | |- _ ~~ _ => solve [eauto with rel]
      | |- rel _ (bind _ _) (bind _ _) => apply rel_bind_eq; [|intros ?]
      | |- rel _ (if ?b then _ else _) (if ?b then _ else _) => apply rel_if; intros ?
      | |- rel _ (match ?x with _ => _ end) (match ?x with _ => _ end) => destruct x
      end.
    Ltac rl := repeat rl1.

    Lemma rel_memorize_string nm : memorize_string E nm ~~ memorize_string E' nm.
    Proof. unfold memorize_string. rl. Qed.
    Hint Resolve rel_memorize_string : rel.
    Lemma rel_memorize_identifier id : memorize_identifier E id ~~ memorize_identifier E' id.
    Proof.
      unfold memorize_identifier. apply rel_bind_eq; [|intros; rl]. apply rel_render. intros. apply Hout.
    Qed.
    Hint Resolve rel_memorize_identifier : rel.
    Lemma rel_simple_string m : demangle_simple_string E m ~~ demangle_simple_string E' m.
    Proof. unfold demangle_simple_string. rl. Qed.
    Hint Resolve rel_simple_string : rel.
    Lemma rel_simple_name m : demangle_simple_name E m ~~ demangle_simple_name E' m.
    Proof. unfold demangle_simple_name. rl. Qed.
    Hint Resolve rel_simple_name : rel.
    Lemma rel_anonymous : demangle_anonymous_namespace_name E ~~ demangle_anonymous_namespace_name E'.
    Proof. unfold demangle_anonymous_namespace_name. rl. Qed.
    Hint Resolve rel_anonymous : rel.
    Lemma rel_locally : demangle_locally_scoped_name_piece E K ~~ demangle_locally_scoped_name_piece E' K'.
    Proof.
      unfold demangle_locally_scoped_name_piece. rl. apply rel_render. intros sg.
      repeat (apply relw_seq; auto).
    Qed.
    Hint Resolve rel_locally : rel.
    Lemma rel_piece : demangle_name_scope_piece E K ~~ demangle_name_scope_piece E' K'.
    Proof. unfold demangle_name_scope_piece. rl. Qed.
    Hint Resolve rel_piece : rel.
    Lemma rel_scope_loop fuel : forall acc, scope_loop E K fuel acc ~~ scope_loop E' K' fuel acc.
    Proof. induction fuel; intros; cbn [scope_loop]; rl. Qed.
    Hint Resolve rel_scope_loop : rel.
    Lemma rel_chain id : demangle_name_scope_chain E K id ~~ demangle_name_scope_chain E' K' id.
    Proof. unfold demangle_name_scope_chain. rl. Qed.
    Hint Resolve rel_chain : rel.
    Lemma rel_code_group g : demangle_function_identifier_code_group E g ~~ demangle_function_identifier_code_group E' g.
    Proof. unfold demangle_function_identifier_code_group. apply rel_bind_eq; [rl|]. intros c. cbv zeta. destruct g; rl. Qed.
    Hint Resolve rel_code_group : rel.
    Lemma rel_code : demangle_function_identifier_code E ~~ demangle_function_identifier_code E'.
    Proof. unfold demangle_function_identifier_code. rl. Qed.
    Hint Resolve rel_code : rel.
    Lemma rel_unq_type m : demangle_unqualified_type_name E K m ~~ demangle_unqualified_type_name E' K' m.
    Proof. unfold demangle_unqualified_type_name. rl. Qed.
    Hint Resolve rel_unq_type : rel.
    Lemma rel_unq_sym b : demangle_unqualified_symbol_name E K b ~~ demangle_unqualified_symbol_name E' K' b.
    Proof. unfold demangle_unqualified_symbol_name. rl. Qed.
    Hint Resolve rel_unq_sym : rel.
    Lemma rel_fq_type : demangle_fully_qualified_type_name E K ~~ demangle_fully_qualified_type_name E' K'.
    Proof. unfold demangle_fully_qualified_type_name. rl. Qed.
    Hint Resolve rel_fq_type : rel.
    Lemma rel_fq_sym : demangle_fully_qualified_symbol_name E K ~~ demangle_fully_qualified_symbol_name E' K'.
    Proof. unfold demangle_fully_qualified_symbol_name. rl. Qed.
    Hint Resolve rel_fq_sym : rel.
    Lemma rel_custom : demangle_custom_type E K ~~ demangle_custom_type E' K'.
    Proof. unfold demangle_custom_type. rl. Qed.
    Lemma rel_class : demangle_class_type E K ~~ demangle_class_type E' K'.
    Proof. unfold demangle_class_type. rl. Qed.
    Lemma rel_params_loop fuel : forall acc, params_loop K fuel acc ~~ params_loop K' fuel acc.
    Proof. induction fuel; intros; cbn [params_loop]; rl. Qed.
    Hint Resolve rel_custom rel_class rel_params_loop : rel.
    Lemma rel_params : demangle_function_parameter_list E K ~~ demangle_function_parameter_list E' K'.
    Proof. unfold demangle_function_parameter_list. rl. Qed.
    Hint Resolve rel_params : rel.
    Lemma rel_function_type b : demangle_function_type E K b ~~ demangle_function_type E' K' b.
    Proof. unfold demangle_function_type. rl. Qed.
    Hint Resolve rel_function_type : rel.
    Lemma rel_pointer : demangle_pointer_type E K ~~ demangle_pointer_type E' K'.
    Proof. unfold demangle_pointer_type. rl. Qed.
    Lemma rel_member_pointer : demangle_member_pointer_type E K ~~ demangle_member_pointer_type E' K'.
    Proof. unfold demangle_member_pointer_type. rl. Qed.
    Lemma rel_dims fuel : forall rank acc, dims_loop E fuel rank acc ~~ dims_loop E' fuel rank acc.
    Proof. induction fuel; intros; cbn [dims_loop]; rl. Qed.
    Hint Resolve rel_pointer rel_member_pointer rel_dims : rel.
    Lemma rel_array : demangle_array_type E K ~~ demangle_array_type E' K'.
    Proof. unfold demangle_array_type. rl. Qed.
    Hint Resolve rel_array : rel.
    Lemma rel_type m : demangle_type E K m ~~ demangle_type E' K' m.
    Proof. unfold demangle_type, demangle_primitive_type. rl. Qed.
    Lemma rel_template_symbol : template_symbol E K ~~ template_symbol E' K'.
    Proof. unfold template_symbol. rl. Qed.
    Hint Resolve rel_template_symbol : rel.
    Lemma rel_template_arg : template_arg E K ~~ template_arg E' K'.
    Proof. unfold template_arg. rl. Qed.
    Hint Resolve rel_template_arg : rel.
    Lemma rel_targs fuel : forall acc, targs_loop E K fuel acc ~~ targs_loop E' K' fuel acc.
    Proof. induction fuel; intros; cbn [targs_loop]; rl. Qed.
    Hint Resolve rel_targs : rel.
    Lemma rel_template_list : demangle_template_parameter_list E K ~~ demangle_template_parameter_list E' K'.
    Proof. unfold demangle_template_parameter_list. rl. Qed.
    Hint Resolve rel_template_list : rel.
    Lemma rel_tinst b : demangle_template_instantiation_name E K b ~~ demangle_template_instantiation_name E' K' b.
    Proof. unfold demangle_template_instantiation_name. rl. Qed.
    Lemma rel_variable_encoding sc : demangle_variable_encoding E K sc ~~ demangle_variable_encoding E' K' sc.
    Proof. unfold demangle_variable_encoding. rl. Qed.
    Lemma rel_function_encoding : demangle_function_encoding E K ~~ demangle_function_encoding E' K'.
    Proof. unfold demangle_function_encoding. apply rel_bind_eq; [rl|]; intros j. rl. Qed.
    Hint Resolve rel_variable_encoding rel_function_encoding : rel.
    Lemma rel_encoded q : demangle_encoded_symbol E K q ~~ demangle_encoded_symbol E' K' q.
    Proof. unfold demangle_encoded_symbol. rl. Qed.
    Hint Resolve rel_encoded : rel.
    Lemma rel_declarator : demangle_declarator E K ~~ demangle_declarator E' K'.
    Proof. unfold demangle_declarator. rl. Qed.
    Hint Resolve rel_declarator : rel.
    Lemma rel_synth_id id : synthesize_from_id E id ~~ synthesize_from_id E' id.
    Proof. unfold synthesize_from_id. rl. Qed.
    Hint Resolve rel_synth_id : rel.
    Lemma rel_synth_name nm : synthesize_from_name E nm ~~ synthesize_from_name E' nm.
    Proof. unfold synthesize_from_name. rl. Qed.
    Hint Resolve rel_synth_name : rel.
    Lemma rel_special_table k : demangle_special_table_symbol_node E K k ~~ demangle_special_table_symbol_node E' K' k.
    Proof. unfold demangle_special_table_symbol_node. rl. Qed.
    Lemma rel_lsg th : demangle_local_static_guard E K th ~~ demangle_local_static_guard E' K' th.
    Proof. unfold demangle_local_static_guard. rl. Qed.
    Lemma rel_untyped nm : demangle_untyped_variable E K nm ~~ demangle_untyped_variable E' K' nm.
    Proof. unfold demangle_untyped_variable. rl. Qed.
    Lemma rel_rtti_bcd : demangle_rtti_base_class_descriptor_node E K ~~ demangle_rtti_base_class_descriptor_node E' K'.
    Proof. unfold demangle_rtti_base_class_descriptor_node. rl. Qed.
    Lemma rel_init_fini d : demangle_init_fini_stub E K d ~~ demangle_init_fini_stub E' K' d.
    Proof. unfold demangle_init_fini_stub. rl. Qed.
    Lemma rel_vcall : demangle_vcall_thunk_node E K ~~ demangle_vcall_thunk_node E' K'.
    Proof. unfold demangle_vcall_thunk_node. rl. Qed.
    Lemma rel_rtti_td : rtti_type_descriptor E K ~~ rtti_type_descriptor E' K'.
    Proof. unfold rtti_type_descriptor. rl. Qed.
    Lemma rel_md5 : demangle_md5_name E ~~ demangle_md5_name E'.
    Proof. unfold demangle_md5_name. rl. Qed.
    Lemma rel_typeinfo : demangle_typeinfo_name E K ~~ demangle_typeinfo_name E' K'.
    Proof. unfold demangle_typeinfo_name. rl. Qed.
    Lemma rel_wide fuel : forall len tr ob ob', beq ob ob' -> rel beq (wide_loop E fuel len tr ob) (wide_loop E' fuel len tr ob').
    Proof.
      induction fuel; intros len tr ob ob' Hb; cbn [wide_loop]; [intros s; right; exact I|].
      apply rel_bind_eq; [rl|intros d]. apply rel_if; intros _; [intros s; right; split; auto|].
      apply rel_bind_eq; [rl|intros t]. apply rel_if; intros _; [intros s; right; reflexivity|].
      apply rel_bind_eq; [rl|intros c].
      eapply rel_bind; [apply rel_run_w; [apply relw_if; intros; apply Hstr|exact Hb]|]. intros b b' Hb'. apply IHfuel; assumption.
    Qed.
    Lemma rel_narrow_out bytes sz num tr count : forall i ob ob', beq ob ob' ->
      rel beq (narrow_out E bytes sz num i count tr ob) (narrow_out E' bytes sz num i count tr ob').
    Proof.
      induction count; intros i ob ob' Hb; cbn [narrow_out]; [intros s; right; split; auto|].
      apply rel_bind_eq; [rl|intros c]. eapply rel_bind; [apply rel_run_w; [apply relw_if; intros; apply Hstr|exact Hb]|]. intros b b' Hb'. apply IHcount; assumption.
    Qed.
    Definition triple_eq (x y : buf * char_kind * bool) : Prop :=
      beq (fst (fst x)) (fst (fst y)) /\ snd (fst x) = snd (fst y) /\ snd x = snd y.
    Lemma rel_string_literal : demangle_string_literal E ~~ demangle_string_literal E'.
    Proof.
      unfold demangle_string_literal.
      do 3 (apply rel_bind_eq; [rl|intros ?]). apply rel_bind_eq; [rl|intros [len neg]]. apply rel_if; intros _; [rl|].
      do 5 (apply rel_bind_eq; [rl|intros ?]). apply rel_if; intros _; [rl|]. eapply (rel_bind triple_eq).
      - apply rel_if; intros _; cbv zeta.
        + eapply rel_bind; [apply rel_wide; reflexivity|]. intros b b' Hb s. right. repeat split; assumption.
        + do 3 (apply rel_bind_eq; [rl|intros ?]).
          eapply rel_bind; [apply rel_narrow_out; reflexivity|]. intros b b' Hb s. right. repeat split; assumption.
      - intros [[b k] t] [[b' k'] t'] (Hb & Hk & Ht). cbn [fst snd] in *. subst.
        apply rel_bind_eq; [apply rel_take; assumption|intros]. rl.
    Qed.
    Hint Resolve rel_special_table rel_lsg rel_untyped rel_rtti_bcd rel_init_fini rel_vcall rel_rtti_td
      rel_md5 rel_typeinfo rel_string_literal : rel.
    Lemma rel_special_intrinsic : demangle_special_intrinsic E K ~~ demangle_special_intrinsic E' K'.
    Proof. unfold demangle_special_intrinsic. rl. Qed.
    Hint Resolve rel_special_intrinsic : rel.
    Lemma rel_do_parse : do_parse E K ~~ do_parse E' K'.
    Proof. unfold do_parse. rl. Qed.
  End Parser.

  Section Knot.
    Variables E E' : env.
    Hypothesis Hintern : forall n, intern E n ~~ intern E' n.
    Hypothesis Hstr : forall t, relw (w_str E t) (w_str E' t).
    Hypothesis Hout : forall sg k h, relw (output E sg k h) (output E' sg k h).

    Lemma rel_knot_step K K' : (k_parse K ~~ k_parse K' /\ (forall m, k_type K m ~~ k_type K' m) /\ forall b, k_tinst K b ~~ k_tinst K' b) ->
      do_parse E K ~~ do_parse E' K' /\ (forall m, demangle_type E K m ~~ demangle_type E' K' m) /\
      forall b, demangle_template_instantiation_name E K b ~~ demangle_template_instantiation_name E' K' b.
    Proof.
      intros (H1 & H2 & H3). split; [|split].
      - apply rel_do_parse; assumption.
      - intros. apply rel_type; assumption.
      - intros. apply rel_tinst; assumption.
    Qed.
    Lemma rel_knot fuel : k_parse (knot_of E fuel) ~~ k_parse (knot_of E' fuel) /\
      (forall m, k_type (knot_of E fuel) m ~~ k_type (knot_of E' fuel) m) /\
      forall b, k_tinst (knot_of E fuel) b ~~ k_tinst (knot_of E' fuel) b.
    Proof.
      induction fuel as [|fuel IH]; [repeat split; intros; apply rel_refl|]. cbn [knot_of k_parse k_type k_tinst].
      apply rel_knot_step. assumption.
    Qed.
    Lemma rel_knot_fuel fuel : bad_f -> forall fuel', fuel <= fuel' -> k_parse (knot_of E fuel) ~~ k_parse (knot_of E' fuel') /\
      (forall m, k_type (knot_of E fuel) m ~~ k_type (knot_of E' fuel') m) /\
      forall b, k_tinst (knot_of E fuel) b ~~ k_tinst (knot_of E' fuel') b.
    Proof.
      intros Hf. induction fuel as [|fuel IH]; intros fuel' Hle.
      - cbn [knot_of k_parse k_type k_tinst]. repeat split; intros; intros s; left; exact Hf.
      - destruct fuel' as [|fuel']; [lia|]. cbn [knot_of k_parse k_type k_tinst]. apply rel_knot_step. apply IH. lia.
    Qed.
  End Knot.
End Rel.
