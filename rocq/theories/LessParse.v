(** The two parsers for Less.v: under more suppression flags the parser builds the same graph,
    except for the text of rendered local scopes.  Proof infrastructure; see Suppress.v. *)
From Verif Require Import Parser Utf8 Lex Show Emit Wf Less LessOut StrLit Pieces.

Definition noq (t : str) : Prop := forall p q, t <> p ++ L "?$" ++ q.
Definition clean (t : str) : Prop := ustr t /\ noq t.
Lemma clean_suf p t : clean (p ++ t) -> clean t.
Proof.
  intros [H1 H2]. split; [apply Forall_app in H1; apply H1|]. intros a b Ht. apply (H2 (p ++ a) b). rewrite Ht, <- app_assoc. reflexivity.
Qed.
Lemma clean_sw t : clean t -> starts_with (L "?$") t = false.
Proof.
  intros [_ H]. unfold starts_with. destruct (strip_prefix (L "?$") t) as [l|] eqn:Hp; [|reflexivity].
  apply strip_prefix_spec in Hp. exfalso. apply (H [] l). exact Hp.
Qed.

(** ** Lexical functions look at the text only *)
Definition obl {A} (P : A -> Prop) (m m' : M A) : Prop := forall s a t, m s = Ok (a, t) ->
  (exists p, tx s = p ++ tx t) /\ t = set_ms (s_ms t) s /\ P a /\ forall s', s_ms s' = s_ms s -> m' s' = Ok (a, set_ms (s_ms t) s').
Definition tt_ {A} (a : A) : Prop := True.
Lemma set_ms_id s : set_ms (s_ms s) s = s. Proof. destruct s; reflexivity. Qed.
Lemma set_ms_eq s s' : s_ms s' = s_ms s -> set_ms (s_ms s) s' = s'.
Proof. intros <-. apply set_ms_id. Qed.
Lemma obl_ret {A} (P : A -> Prop) a : P a -> obl P (ret a) (ret a).
Proof.
  intros HP s b t H. injection H as <- <-. split; [exists []; reflexivity|]. split; [symmetry; apply set_ms_id|]. split; [assumption|].
  intros s' Hs. rewrite set_ms_eq by assumption. reflexivity.
Qed.
Lemma obl_fail {A} (P : A -> Prop) e m' : obl P (fail e) m'. Proof. intros s a t H. discriminate. Qed.
Lemma obl_panic {A} (P : A -> Prop) m' : obl P panic m'. Proof. intros s a t H. discriminate. Qed.
Lemma obl_fuel {A} (P : A -> Prop) m' : obl P nofuel m'. Proof. intros s a t H. discriminate. Qed.
Lemma obl_bind {A B} (P : A -> Prop) (Q : B -> Prop) m m' f f' : obl P m m' -> (forall a, P a -> obl Q (f a) (f' a)) -> obl Q (bind m f) (bind m' f').
Proof.
  intros Hm Hf s b u H. unfold bind in *. destruct (m s) as [[a t]| | |] eqn:Em; try discriminate.
  destruct (Hm s a t Em) as ((p & Hp) & Ht & Ha & H'). destruct (Hf a Ha t b u H) as ((q & Hq) & Hu & Hb & H'').
  split; [exists (p ++ q); rewrite <- app_assoc, <- Hq; exact Hp|]. split; [rewrite Hu, Ht; reflexivity|]. split; [assumption|].
  intros s' Hs. rewrite (H' s' Hs). rewrite (H'' (set_ms (s_ms t) s')) by reflexivity. reflexivity.
Qed.
Lemma obl_weak {A} (P Q : A -> Prop) m m' : (forall a, P a -> Q a) -> obl P m m' -> obl Q m m'.
Proof. intros HP H s a t Hm. destruct (H s a t Hm) as (H1 & H2 & H3 & H4). auto. Qed.
Lemma obl_ok_or {A} (P : A -> Prop) o e : (forall a, o = Some a -> P a) -> obl P (ok_or o e) (ok_or o e).
Proof. destruct o; intros H; [apply obl_ret; auto|apply obl_fail]. Qed.
Lemma obl_if {A} (P : A -> Prop) (b : bool) m m' k k' : (b = true -> obl P m m') -> (b = false -> obl P k k') -> obl P (if b then m else k) (if b then m' else k').
Proof. destruct b; auto. Qed.
Lemma obl_text : obl (A := str) tt_ text text.
Proof.
  intros s a t H. injection H as <- <-. split; [exists []; reflexivity|]. split; [symmetry; apply set_ms_id|]. split; [exact I|].
  intros s' Hs. unfold text. rewrite Hs, set_ms_eq by assumption. reflexivity.
Qed.
Lemma obl_len : obl (A := nat) tt_ len_chars len_chars.
Proof.
  intros s a t H. injection H as <- <-. split; [exists []; reflexivity|]. split; [symmetry; apply set_ms_id|]. split; [exact I|].
  intros s' Hs. unfold len_chars. rewrite Hs, set_ms_eq by assumption. reflexivity.
Qed.
Definition sufm {A} (f : mstring -> mres A) : Prop := forall m a m', f m = Ok (a, m') -> exists p, ms_str m = p ++ ms_str m'.
Lemma obl_lift {A} (f : mstring -> mres A) : sufm f -> obl tt_ (lift f) (lift f).
Proof.
  intros Hf s a t H. unfold lift in H. destruct (f (s_ms s)) as [[o m]| | |] eqn:Ef; try discriminate. injection H as <- <-.
  split; [exact (Hf _ _ _ Ef)|]. split; [reflexivity|]. split; [exact I|]. intros s' Hs. unfold lift. rewrite Hs, Ef. reflexivity.
Qed.
Lemma drop_suf m r n m' : ms_drop m r n = Ok m' -> ms_str m' = r.
Proof. unfold ms_drop. destruct (n <=? ms_chars m); [|discriminate]. intros H. injection H as <-. reflexivity. Qed.
Ltac suf := match goal with
  | H : context [match ms_drop ?m ?r ?n with _ => _ end] |- _ => let D := fresh "D" in destruct (ms_drop m r n) as [?| | |] eqn:D; try discriminate H; apply drop_suf in D
  end.
Lemma suf_consume : sufm try_consume.
Proof. intros m a m' H. unfold try_consume in H. destruct (ms_str m) as [|c r] eqn:Hs; [injection H as <- <-; exists []; symmetry; assumption|]. suf. injection H as <- <-. exists [c]. rewrite D. reflexivity. Qed.
Lemma suf_if f : sufm (try_consume_char_if f).
Proof.
  intros m a m' H. unfold try_consume_char_if in H. destruct (ms_str m) as [|c r] eqn:Hs; [injection H as <- <-; exists []; symmetry; assumption|].
  destruct (f c); [|injection H as <- <-; exists []; symmetry; assumption]. suf. injection H as <- <-. exists [c]. rewrite D. reflexivity.
Qed.
Lemma suf_bytes n : sufm (try_consume_n_bytes n).
Proof.
  intros m a m' H. unfold try_consume_n_bytes in H. destruct (split_bytes n (ms_str m)) as [[x y]|] eqn:Hs; [|injection H as <- <-; exists []; reflexivity].
  suf. injection H as <- <-. apply split_bytes_spec in Hs. exists x. rewrite D. apply Hs.
Qed.
Lemma suf_2 : sufm try_consume_2_chars.
Proof.
  intros m a m' H. unfold try_consume_2_chars in H. destruct (ms_str m) as [|c [|d r]] eqn:Hs; try (injection H as <- <-; exists []; symmetry; assumption).
  suf. injection H as <- <-. exists [c; d]. rewrite D. reflexivity.
Qed.
Lemma suf_str p : sufm (try_consume_str p).
Proof.
  intros m a m' H. unfold try_consume_str in H. destruct (strip_prefix p (ms_str m)) as [r|] eqn:Hs; [|injection H as <- <-; exists []; reflexivity].
  suf. injection H as <- <-. apply strip_prefix_spec in Hs. exists p. rewrite D. exact Hs.
Qed.
Ltac ob1 :=
  match goal with
  | |- obl _ (bind _ _) (bind _ _) => eapply (obl_bind tt_); [|intros ? _]
  | |- obl _ (ret _) (ret _) => apply obl_ret; exact I
  | |- obl _ (fail _) _ => apply obl_fail
  | |- obl _ panic _ => apply obl_panic
  | |- obl _ nofuel _ => apply obl_fuel
  | |- obl _ text _ => apply obl_text
  | |- obl _ len_chars _ => apply obl_len
  | |- obl _ (ok_or _ _) _ => apply obl_ok_or; intros; exact I
  | |- obl _ (lift _) _ => apply obl_lift; first [apply suf_consume|apply suf_if|apply suf_bytes|apply suf_2|apply suf_str]
  | |- obl _ (if ?b then _ else _) (if ?b then _ else _) => apply obl_if; intros ?
  | |- obl _ (match ?x with _ => _ end) (match ?x with _ => _ end) => destruct x
  end.
Ltac ob := repeat ob1.
Lemma obl_next e : obl tt_ (next_char e) (next_char e). Proof. unfold next_char. ob. Qed.
Lemma obl_eat_if f : obl tt_ (eat_if f) (eat_if f). Proof. unfold eat_if. ob. Qed.
Lemma obl_eat_char c : obl tt_ (eat_char c) (eat_char c). Proof. unfold eat_char, try_consume_char. ob. Qed.
Lemma obl_eat_str p : obl tt_ (eat_str p) (eat_str p). Proof. unfold eat_str. ob. Qed.
Lemma obl_expect_char c e : obl tt_ (expect_char c e) (expect_char c e). Proof. unfold expect_char, eat_char, try_consume_char. ob. Qed.
Lemma obl_expect_str p e : obl tt_ (expect_str p e) (expect_str p e). Proof. unfold expect_str, eat_str. ob. Qed.
Ltac ob2 := repeat first
  [ apply obl_next | apply obl_eat_if | apply obl_eat_char | apply obl_eat_str | apply obl_expect_char | apply obl_expect_str | ob1 ].
Lemma obl_special t : obl tt_ (consume_special t) (consume_special t).
Proof. induction t as [|[p k] t IH]; cbn [consume_special]; ob2. exact IH. Qed.
Lemma obl_pext : obl tt_ pointer_ext_qualifiers pointer_ext_qualifiers. Proof. unfold pointer_ext_qualifiers. ob2. Qed.
Lemma obl_number_loop fuel : forall c n, obl tt_ (number_loop fuel c n) (number_loop fuel c n).
Proof. induction fuel; intros c n; cbn [number_loop]; ob2. apply IHfuel. Qed.
Lemma obl_number : obl tt_ demangle_number demangle_number. Proof. unfold demangle_number. ob2. apply obl_number_loop. Qed.
Lemma obl_unsigned : obl tt_ demangle_unsigned demangle_unsigned. Proof. unfold demangle_unsigned. eapply (obl_bind tt_); [apply obl_number|]. intros [] _. ob2. Qed.
Lemma obl_signed : obl tt_ demangle_signed demangle_signed. Proof. unfold demangle_signed. eapply (obl_bind tt_); [apply obl_number|]. intros [] _. ob2. Qed.
Lemma obl_u32 n e : obl tt_ (to_u32 n e) (to_u32 n e). Proof. unfold to_u32. ob2. Qed.
Lemma obl_i32 n e : obl tt_ (to_i32 n e) (to_i32 n e). Proof. unfold to_i32. ob2. Qed.
Lemma obl_quals : obl tt_ demangle_qualifiers demangle_qualifiers. Proof. unfold demangle_qualifiers. ob2. Qed.
Lemma obl_pcv : obl tt_ demangle_pointer_cv_qualifiers demangle_pointer_cv_qualifiers. Proof. unfold demangle_pointer_cv_qualifiers. ob2. Qed.
Lemma obl_rq : obl tt_ demangle_function_ref_qualifier demangle_function_ref_qualifier. Proof. unfold demangle_function_ref_qualifier. ob2. Qed.
Lemma obl_cc : obl tt_ demangle_calling_convention demangle_calling_convention. Proof. unfold demangle_calling_convention. ob2. Qed.
Lemma obl_sc : obl tt_ demangle_variable_storage_class demangle_variable_storage_class. Proof. unfold demangle_variable_storage_class. ob2. Qed.
Lemma obl_throw : obl tt_ demangle_throw_specification demangle_throw_specification. Proof. unfold demangle_throw_specification. ob2. Qed.
Lemma obl_fc : obl tt_ demangle_function_class demangle_function_class. Proof. unfold demangle_function_class. ob2. Qed.
Lemma obl_prim : obl tt_ demangle_primitive_kind demangle_primitive_kind. Proof. unfold demangle_primitive_kind. ob2. Qed.
Lemma obl_translate c g : obl tt_ (translate_intrinsic c g) (translate_intrinsic c g). Proof. unfold translate_intrinsic. ob2. Qed.
Lemma obl_char : obl tt_ demangle_char_literal demangle_char_literal. Proof. unfold demangle_char_literal. ob2. Qed.
Lemma obl_wchar : obl tt_ demangle_wchar_literal demangle_wchar_literal. Proof. unfold demangle_wchar_literal. ob2; apply obl_char. Qed.
Lemma obl_adjust fc : obl tt_ (this_adjust fc) (this_adjust fc).
Proof. unfold this_adjust. ob2; apply obl_signed. Qed.

(** ** Related states *)
Definition ok_store (sg : store) : Prop := forall h n, nth_error sg h = Some n -> is_desc n = false /\ tag_ok sg n.
Record R (s s' : st) : Prop := {
  r_ms : s_ms s' = s_ms s;
  r_fps : s_fps s' = s_fps s;
  r_names : s_names s' = s_names s;
  r_st : srel (s_store s) (s_store s');
  r_ok : ok_store (s_store s);
  r_nm : Forall (fun h => exists x, nth_error (s_store s) h = Some (NNamed None x) /\ nth_error (s_store s') h = Some (NNamed None x)) (s_names s);
  r_fpv : Forall (notvar (s_store s)) (s_fps s);
  r_text : clean (tx s)
}.
Definition fixed (n : node) : bool := match n with NNamed _ _ | NQual _ | NNodes _ => true | _ => false end.
Definition keeps (sg tg : store) : Prop := forall h n, nth_error sg h = Some n ->
  exists n', nth_error tg h = Some n' /\ is_var n' = is_var n /\ (fixed n = true -> n' = n).
Lemma keeps_refl sg : keeps sg sg. Proof. intros h n H. eauto. Qed.
Lemma keeps_trans a b c : keeps a b -> keeps b c -> keeps a c.
Proof.
  intros H1 H2 h n Hn. destruct (H1 h n Hn) as (m & Hm & Hv & Hf). destruct (H2 h m Hm) as (k & Hk & Hv' & Hf').
  exists k. split; [assumption|]. split; [congruence|]. intros F. rewrite (Hf F) in *. auto.
Qed.
Lemma keeps_app sg n : keeps sg (sg ++ [n]).
Proof. intros h m H. exists m. split; [|auto]. rewrite nth_error_app1; [assumption|]. apply nth_error_Some. congruence. Qed.
Lemma keeps_notvar a b h : keeps a b -> notvar a h -> notvar b h.
Proof. intros H (n & Hn & Hv). destruct (H h n Hn) as (m & Hm & Hv' & _). exists m. split; [assumption|congruence]. Qed.
Lemma keeps_named a b h : keeps a b -> named a h -> named b h.
Proof. intros H (tp & x & Hn). destruct (H h _ Hn) as (m & Hm & _ & Hf). exists tp, x. rewrite (Hf eq_refl) in Hm. assumption. Qed.
Lemma keeps_plain a b h : keeps a b -> plain a h -> plain b h.
Proof.
  intros H (c & l & H1 & H2 & H3). destruct (H h _ H1) as (m & Hm & _ & Hf). rewrite (Hf eq_refl) in Hm.
  destruct (H c _ H2) as (k & Hk & _ & Hf'). rewrite (Hf' eq_refl) in Hk. exists c, l. split; [assumption|]. split; [assumption|].
  eapply Forall_impl; [|exact H3]. intros i. apply keeps_named; assumption.
Qed.
Lemma keeps_tag a b n : keeps a b -> tag_ok a n -> tag_ok b n.
Proof.
  intros H. destruct n; cbn [tag_ok]; auto.
  - apply keeps_plain; assumption.
  - apply keeps_named; assumption.
  - intros Hl. eapply Forall_impl; [|exact Hl]. intros i. apply keeps_notvar; assumption.
Qed.
Lemma named_notvar sg h : named sg h -> notvar sg h.
Proof. intros (tp & x & H). exists (NNamed tp x). auto. Qed.

(** ** Parser steps *)
Definition sp {A} (Q : A -> st -> Prop) (m m' : M A) (s s' : st) : Prop := forall a t, m s = Ok (a, t) ->
  exists t', m' s' = Ok (a, t') /\ R t t' /\ keeps (s_store s) (s_store t) /\ Q a t.
Definition any2 {A} (a : A) (t : st) : Prop := True.
Lemma sp_weak {A} (P Q : A -> st -> Prop) m m' s s' : (forall a t, P a t -> Q a t) -> sp P m m' s s' -> sp Q m m' s s'.
Proof. intros HP H a t Hm. destruct (H a t Hm) as (t' & H1 & H2 & H3 & H4). exists t'. auto. Qed.
Lemma sp_any {A} (P : A -> st -> Prop) m m' s s' : sp P m m' s s' -> sp any2 m m' s s'.
Proof. apply sp_weak. intros; exact I. Qed.
Lemma sp_ret {A} (Q : A -> st -> Prop) a s s' : R s s' -> Q a s -> sp Q (ret a) (ret a) s s'.
Proof. intros HR HQ b t H. injection H as <- <-. exists s'. split; [reflexivity|]. split; [assumption|]. split; [apply keeps_refl|assumption]. Qed.
Lemma sp_fail {A} (Q : A -> st -> Prop) e m' s s' : sp Q (fail e) m' s s'. Proof. intros a t H. discriminate. Qed.
Lemma sp_panic {A} (Q : A -> st -> Prop) m' s s' : sp Q panic m' s s'. Proof. intros a t H. discriminate. Qed.
Lemma sp_fuel {A} (Q : A -> st -> Prop) m' s s' : sp Q nofuel m' s s'. Proof. intros a t H. discriminate. Qed.
Lemma sp_bind {A B} (P : A -> st -> Prop) (Q : B -> st -> Prop) m m' f f' s s' : sp P m m' s s' ->
  (forall a t t', R t t' -> keeps (s_store s) (s_store t) -> P a t -> sp Q (f a) (f' a) t t') -> sp Q (bind m f) (bind m' f') s s'.
Proof.
  intros Hm Hf b u H. unfold bind in *. destruct (m s) as [[a t]| | |] eqn:Em; try discriminate.
  destruct (Hm a t Em) as (t' & -> & H2 & H3 & H4). destruct (Hf a t t' H2 H3 H4 b u H) as (u' & G1 & G2 & G3 & G4).
  exists u'. split; [assumption|]. split; [assumption|]. split; [eapply keeps_trans; eassumption|assumption].
Qed.
Lemma sp_if {A} (Q : A -> st -> Prop) (b : bool) m m' k k' s s' : (b = true -> sp Q m m' s s') -> (b = false -> sp Q k k' s s') ->
  sp Q (if b then m else k) (if b then m' else k') s s'.
Proof. destruct b; auto. Qed.
Lemma R_set_ms s s' m : R s s' -> clean (ms_str m) -> R (set_ms m s) (set_ms m s').
Proof. intros [H1 H2 H3 H4 H5 H6 H7 H8] Hc. constructor; cbn; try assumption. reflexivity. Qed.
Lemma sp_obl {A} (P : A -> Prop) m m' s s' : obl P m m' -> R s s' -> sp (fun a t => P a /\ exists p, tx s = p ++ tx t) m m' s s'.
Proof.
  intros Hm HR a t H. destruct (Hm s a t H) as ((p & Hp) & Ht & HP & H'). exists (set_ms (s_ms t) s'). split; [apply H', (r_ms _ _ HR)|].
  split; [|split; [rewrite Ht; apply keeps_refl|eauto]]. rewrite Ht. cbn [s_ms set_ms]. apply R_set_ms; [assumption|].
  pose proof (r_text _ _ HR) as Hc. rewrite Hp in Hc. apply clean_suf in Hc. exact Hc.
Qed.
Lemma sp_lex {A B} (Q : B -> st -> Prop) (m : M A) f f' s s' : obl tt_ m m -> R s s' ->
  (forall a t t', R t t' -> keeps (s_store s) (s_store t) -> (exists p, tx s = p ++ tx t) -> sp Q (f a) (f' a) t t') -> sp Q (bind m f) (bind m f') s s'.
Proof. intros Hm HR Hf. eapply sp_bind; [apply (sp_obl tt_); eassumption|]. intros a t t' H1 H2 [_ H3]. auto. Qed.
Lemma sp_text {B} (Q : B -> st -> Prop) f f' s s' : R s s' -> (sp Q (f (tx s)) (f' (tx s)) s s') -> sp Q (bind text f) (bind text f') s s'.
Proof.
  intros HR Hf b u H. unfold bind, text in *. cbn [s_ms] in *. rewrite (r_ms _ _ HR). exact (Hf b u H).
Qed.
Lemma sp_ok_or {A B} (Q : B -> st -> Prop) (o : option A) e f f' s s' : (forall a, o = Some a -> sp Q (f a) (f' a) s s') ->
  sp Q (bind (ok_or o e) f) (bind (ok_or o e) f') s s'.
Proof. intros H. destruct o; [exact (H a eq_refl)|]. intros b u Hb. discriminate. Qed.
Lemma sp_assoc {A B C} (Q : C -> st -> Prop) (m : M A) (g : A -> M B) (f : B -> M C) (m' : M A) (g' : A -> M B) (f' : B -> M C) s s' :
  sp Q (bind m (fun a => bind (g a) f)) (bind m' (fun a => bind (g' a) f')) s s' -> sp Q (bind (bind m g) f) (bind (bind m' g') f') s s'.
Proof.
  intros H b u Hb. specialize (H b u). unfold bind in *.
  destruct (m s) as [[a t]| | |]; try discriminate Hb. destruct (m' s') as [[a' t']| | |]; exact (H Hb).
Qed.

Section Parse.
  Variables E E' : env.
  Hypothesis V : less E E'.
  Hypothesis HN : e_nodes E = e_nodes E'.
  Hypothesis Hgrow : e_grow E = e_grow E'.

  Lemma R_app s s' n n' : R s s' -> nrel n n' -> is_desc n = false -> tag_ok (s_store s) n ->
    R (set_store (s_store s ++ [n]) s) (set_store (s_store s' ++ [n']) s').
  Proof.
    intros [H1 H2 H3 H4 H5 H6 H7 H8] Hn Hd Ht. constructor; cbn [s_ms s_fps s_names s_store set_store]; try assumption.
    - apply Forall2_app; [assumption|]. constructor; [assumption|constructor].
    - intros h m Hm. destruct (Nat.lt_ge_cases h (length (s_store s))) as [Hl|Hl].
      + rewrite nth_error_app1 in Hm by assumption. destruct (H5 h m Hm) as [G1 G2]. split; [assumption|]. eapply keeps_tag; [apply keeps_app|assumption].
      + rewrite nth_error_app2 in Hm by assumption. destruct (h - length (s_store s)) as [|i] eqn:Hi; cbn in Hm; [|destruct i; discriminate].
        injection Hm as <-. split; [assumption|]. eapply keeps_tag; [apply keeps_app|assumption].
    - eapply Forall_impl; [|exact H6]. intros h (x & G1 & G2). exists x. 
      assert (A : forall (sg : store) k m, nth_error sg h = Some m -> nth_error (sg ++ [k]) h = Some m).
      { intros sg k m Hm. rewrite nth_error_app1; [assumption|]. apply nth_error_Some. congruence. }
      auto.
    - eapply Forall_impl; [|exact H7]. intros h. apply keeps_notvar, keeps_app.
  Qed.
  Lemma sp_intern2 n n' s s' : R s s' -> nrel n n' -> is_desc n = false -> tag_ok (s_store s) n ->
    sp (fun h t => nth_error (s_store t) h = Some n) (intern E n) (intern E' n') s s'.
  Proof.
    intros HR Hn Hd Ht a t H. unfold intern in *. rewrite <- (srel_len _ _ (r_st _ _ HR)), <- HN.
    destruct (e_nodes E <? _)%N; [discriminate|]. injection H as <- <-. eexists. split; [reflexivity|].
    split; [apply R_app; assumption|]. cbn [s_store set_store]. split; [apply keeps_app|].
    rewrite nth_error_app2 by lia. rewrite Nat.sub_diag. reflexivity.
  Qed.
  Lemma sp_intern n s s' : R s s' -> strs_ok n -> is_desc n = false -> tag_ok (s_store s) n ->
    sp (fun h t => nth_error (s_store t) h = Some n) (intern E n) (intern E' n) s s'.
  Proof. intros. apply sp_intern2; try assumption. apply nrel_refl; assumption. Qed.
  Lemma sp_new n (Q : handle -> st -> Prop) s s' : R s s' -> strs_ok n -> is_desc n = false -> tag_ok (s_store s) n ->
    (forall h t, nth_error (s_store t) h = Some n -> Q h t) -> sp Q (intern E n) (intern E' n) s s'.
  Proof. intros HR H1 H2 H3 HQ. eapply sp_weak; [|apply sp_intern; assumption]. exact HQ. Qed.
  Lemma sp_new_bind {B} (Q : B -> st -> Prop) n f f' s s' : R s s' -> strs_ok n -> is_desc n = false -> tag_ok (s_store s) n ->
    (forall h t t', R t t' -> keeps (s_store s) (s_store t) -> nth_error (s_store t) h = Some n -> sp Q (f h) (f' h) t t') ->
    sp Q (bind (intern E n) f) (bind (intern E' n) f') s s'.
  Proof. intros HR H1 H2 H3 Hf. eapply sp_bind; [apply sp_intern; assumption|]. cbv beta. intros. auto. Qed.
  Lemma sp_res {B} (Q : B -> st -> Prop) k h f f' s s' : R s s' ->
    (forall n n', nth_error (s_store s) h = Some n -> hkind k n = true -> nrel n n' -> nth_error (s_store s') h = Some n' -> sp Q (f n) (f' n') s s') ->
    sp Q (bind (res_ k h) f) (bind (res_ k h) f') s s'.
  Proof.
    intros HR Hf b u H. unfold bind, res_ in *. destruct (resolve (s_store s) k h) as [n|] eqn:Hn; [|discriminate].
    destruct (srel_resolve _ _ _ _ _ (r_st _ _ HR) Hn) as (n' & Hn' & Hr). rewrite Hn'. 
    pose proof (resolve_nth _ _ _ _ Hn) as N1. pose proof (resolve_nth _ _ _ _ Hn') as N2.
    apply (Hf n n' N1); try assumption. unfold resolve in Hn. rewrite N1 in Hn. destruct (hkind k n); congruence.
  Qed.

  (** Updates that keep names, lists and shapes. *)
  Record tame (f : node -> node) : Prop := {
    t_fixed : forall n, fixed n = true -> f n = n;
    t_var : forall n, is_var (f n) = is_var n;
    t_strs : forall n, strs_ok n -> strs_ok (f n);
    t_desc : forall n, is_desc n = false -> is_desc (f n) = false;
    t_tag : forall sg n, tag_ok sg n -> tag_ok sg (f n)
  }.
  Lemma keeps_upd sg h n f : tame f -> nth_error sg h = Some n -> keeps sg (upd sg h (f n)).
  Proof.
    intros Hf Hn i m Hm. destruct (Nat.eq_dec i h) as [->|Hi].
    - assert (m = n) by congruence. subst m. exists (f n). rewrite (nth_upd_same _ _ _ _ Hn). split; [reflexivity|].
      split; [apply t_var; assumption|]. intros F. apply t_fixed; assumption.
    - exists m. rewrite nth_upd_other by assumption. auto.
  Qed.
  Lemma srel_upd sg sg' h n n' : srel sg sg' -> nrel n n' -> srel (upd sg h n) (upd sg' h n').
  Proof.
    intros H Hn. revert h. induction H as [|a a' l l' Ha Hl IH]; intros [|h]; cbn [upd]; constructor; auto. apply IH.
  Qed.
  Lemma sp_modify (Q : unit -> st -> Prop) k h f s s' : tame f -> R s s' -> (forall t, Q tt t) -> sp Q (modify k h f) (modify k h f) s s'.
  Proof.
    intros Hf HR HQ a t H. unfold modify in *. destruct (resolve (s_store s) k h) as [n|] eqn:Hn; [|discriminate]. injection H as <- <-.
    destruct (srel_resolve _ _ _ _ _ (r_st _ _ HR) Hn) as (n' & Hn' & Hr). rewrite Hn'. eexists. split; [reflexivity|].
    pose proof (resolve_nth _ _ _ _ Hn) as N1. pose proof (resolve_nth _ _ _ _ Hn') as N2.
    pose proof (keeps_upd _ _ _ _ Hf N1) as Hk.
    split; [|split; [exact Hk|apply HQ]]. destruct HR as [H1 H2 H3 H4 H5 H6 H7 H8].
    constructor; cbn [s_ms s_fps s_names s_store set_store]; try assumption.
    - apply srel_upd; [assumption|]. destruct n; try (destruct Hr as [<- Hs]; apply nrel_refl, t_strs; assumption).
      destruct n'; try (destruct Hr as [Hr _]; discriminate Hr). rewrite !(t_fixed _ Hf) by reflexivity. exact Hr.
    - intros i m Hm. destruct (Nat.eq_dec i h) as [->|Hi].
      + rewrite (nth_upd_same _ _ _ _ N1) in Hm. injection Hm as <-. destruct (H5 h n N1) as [G1 G2].
        split; [apply t_desc; assumption|]. eapply keeps_tag; [exact Hk|]. apply t_tag; assumption.
      + rewrite nth_upd_other in Hm by assumption. destruct (H5 i m Hm) as [G1 G2]. split; [assumption|]. eapply keeps_tag; eassumption.
    - eapply Forall_impl; [|exact H6]. intros i (x & G1 & G2). exists x. destruct (Nat.eq_dec i h) as [->|Hi].
      + assert (n = NNamed None x) by congruence. assert (n' = NNamed None x) by congruence. subst n n'.
        rewrite (t_fixed _ Hf) by reflexivity. split; eapply nth_upd_same; eassumption.
      + rewrite !nth_upd_other by assumption. auto.
    - eapply Forall_impl; [|exact H7]. intros i. apply keeps_notvar. exact Hk.
  Qed.
  Ltac tm := constructor; [intros [] Hf; try discriminate Hf; reflexivity|intros []; reflexivity|intros []; cbn; auto|
    intros []; cbn; auto; try (intros; discriminate)|intros sg []; cbn; auto].
  Lemma tame_quals g : tame (node_quals g). Proof. tm. Qed.
  Lemma tame_class c : tame (set_function_class c). Proof. tm. Qed.
  Lemma tame_sym h : tame (set_sym_name h). Proof. tm. Qed.
  Lemma tame_set_class h : tame (set_class h). Proof. tm. Qed.
  Lemma tame_target h : tame (set_target h). Proof. tm. Qed.
  Lemma tame_scope h : tame (set_scope_index h). Proof. tm. Qed.
  Lemma tame_func h : tame (set_func_name h). Proof. tm. Qed.
  Lemma tame_vcall h : tame (set_vcall_offset h). Proof. tm. Qed.

  (** *** Rules for sequences *)
  Lemma sp_get {B} (Q : B -> st -> Prop) f f' s s' : sp Q (f s) (f' s') s s' -> sp Q (bind get f) (bind get f') s s'.
  Proof. intros H. exact H. Qed.
  Lemma sp_mod_bind {B} (Q : B -> st -> Prop) k h f g g' s s' : tame f -> R s s' ->
    (forall t t', R t t' -> keeps (s_store s) (s_store t) -> sp Q (g tt) (g' tt) t t') -> sp Q (bind (modify k h f) g) (bind (modify k h f) g') s s'.
  Proof. intros Hf HR Hg. eapply (sp_bind any2); [apply sp_modify; [assumption|assumption|intros; exact I]|]. intros [] t t' H1 H2 _. auto. Qed.
  Definition is_named (n : node) : bool := match n with NNamed _ _ => true | _ => false end.
  Lemma sp_res2 {B} (Q : B -> st -> Prop) k h f f' s s' : R s s' ->
    (forall n, nth_error (s_store s) h = Some n -> hkind k n = true -> is_named n = false -> sp Q (f n) (f' n) s s') ->
    (forall tp a a', nth_error (s_store s) h = Some (NNamed tp a) -> hkind k (NNamed tp a) = true -> sp Q (f (NNamed tp a)) (f' (NNamed tp a')) s s') ->
    sp Q (bind (res_ k h) f) (bind (res_ k h) f') s s'.
  Proof.
    intros HR H1 H2. apply sp_res; [assumption|]. intros n n' Hn Hk Hr Hn'. destruct n; try (destruct Hr as [<- _]; apply H1; [assumption|assumption|reflexivity]).
    destruct n'; try (destruct Hr as [Hr _]; discriminate Hr). destruct Hr as [<- _]. apply H2; assumption.
  Qed.
  Lemma sp_obl0 {A} (m : M A) s s' : obl tt_ m m -> R s s' -> sp any2 m m s s'.
  Proof. intros. eapply sp_any, (sp_obl tt_); eassumption. Qed.
  Ltac ob3 := repeat first
    [ apply obl_next | apply obl_eat_if | apply obl_eat_char | apply obl_eat_str | apply obl_expect_char | apply obl_expect_str
    | apply obl_special | apply obl_pext | apply obl_number | apply obl_unsigned | apply obl_signed | apply obl_u32 | apply obl_i32
    | apply obl_quals | apply obl_pcv | apply obl_rq | apply obl_cc | apply obl_sc | apply obl_throw | apply obl_fc | apply obl_prim
    | apply obl_translate | apply obl_char | apply obl_wchar | apply obl_adjust | ob1 ].
  Ltac lx := eapply sp_lex; [solve [ob3]|eassumption|intros ? ? ? ? ? ?].

  (** *** Names *)
  Definition same_name (s s' : st) (h : handle) : Prop := exists x, nth_error (s_store s) h = Some (NNamed None x) /\ nth_error (s_store s') h = Some (NNamed None x).
  Lemma sp_names l s s' : R s s' -> Forall (same_name s s') l -> sp any2 (resolve_names l) (resolve_names l) s s'.
  Proof.
    intros HR. induction l as [|h l IH]; intros Hl; cbn [resolve_names]; [apply sp_ret; [assumption|exact I]|].
    inversion Hl as [|? ? (x & H1 & H2) Hl']; subst. apply sp_res; [assumption|]. intros n n' Hn _ _ Hn'.
    assert (n = NNamed None x) by congruence. assert (n' = NNamed None x) by congruence. subst n n'.
    eapply sp_bind; [apply IH; assumption|]. intros r t t' HR' _ _. apply sp_ret; [assumption|exact I].
  Qed.
  Lemma sp_memorize name s s' : ustr name -> R s s' -> sp any2 (memorize_string E name) (memorize_string E' name) s s'.
  Proof.
    intros Hu HR. unfold memorize_string. apply sp_get. rewrite (r_names _ _ HR).
    apply sp_if; intros _; [apply sp_ret; [assumption|exact I]|].
    eapply sp_bind; [apply sp_names; [assumption|exact (r_nm _ _ HR)]|]. intros kn t t' HRt _ _. clear s s' HR.
    apply sp_if; intros _; [apply sp_ret; [assumption|exact I]|].
    intros a u H. unfold bind, intern in *. rewrite <- (srel_len _ _ (r_st _ _ HRt)), <- HN.
    destruct (e_nodes E <? _)%N; [discriminate|]. injection H as <- <-. eexists. split; [reflexivity|].
    split; [|split; [apply keeps_app|exact I]].
    destruct (R_app t t' (NNamed None name) (NNamed None name) HRt) as [H1 H2 H3 H4 H5 H6 H7 H8]; [apply nrel_refl; exact Hu|reflexivity|exact I|].
    constructor; cbn [s_ms s_fps s_names s_store set_store set_names] in *; try assumption.
    - rewrite H3. reflexivity.
    - apply Forall_app. split; [assumption|]. constructor; [|constructor]. exists name.
      rewrite (srel_len _ _ (r_st _ _ HRt)) at 2. rewrite !nth_error_app2, !Nat.sub_diag by lia. auto.
  Qed.
  Lemma sp_bytes n s s' : R s s' -> sp (fun o t => forall x, o = Some x -> ustr x) (lift (try_consume_n_bytes n)) (lift (try_consume_n_bytes n)) s s'.
  Proof.
    intros HR a t H. destruct (sp_obl tt_ _ _ s s' (obl_lift _ (suf_bytes n)) HR a t H) as (t' & H1 & H2 & H3 & _).
    exists t'. split; [assumption|]. split; [assumption|]. split; [assumption|]. intros x ->.
    unfold lift in H. destruct (try_consume_n_bytes n (s_ms s)) as [[o m]| | |] eqn:Ho; try discriminate. injection H as -> _.
    unfold try_consume_n_bytes in Ho. destruct (split_bytes n (ms_str (s_ms s))) as [[u v]|] eqn:Hs; [|discriminate].
    suf. injection Ho as -> _. apply split_bytes_spec in Hs. pose proof (proj1 (r_text _ _ HR)) as Hc. unfold tx in Hc. 
    rewrite (proj1 Hs) in Hc. apply Forall_app in Hc. apply Hc.
  Qed.
  Ltac txt := apply sp_text; [eassumption|].
  Ltac byt := eapply sp_bind; [apply sp_bytes; eassumption|]; cbv beta; intros ? ? ? ? ? ?; apply sp_ok_or; intros ? ?.
  Lemma sp_simple_string mem s s' : R s s' -> sp (fun x t => ustr x) (demangle_simple_string E mem) (demangle_simple_string E' mem) s s'.
  Proof.
    intros HR. unfold demangle_simple_string. txt. apply sp_ok_or. intros pos _. apply sp_if; intros _; [apply sp_fail|].
    byt. lx. assert (ustr a0) by auto.
    eapply (sp_bind any2).
    - apply sp_if; intros _; [apply sp_memorize; assumption|apply sp_ret; [assumption|exact I]].
    - intros ? ? ? ? _ _. apply sp_ret; assumption.
  Qed.
  Lemma sp_simple_name mem s s' : R s s' -> sp (fun h t => named (s_store t) h) (demangle_simple_name E mem) (demangle_simple_name E' mem) s s'.
  Proof.
    intros HR. unfold demangle_simple_name. eapply sp_bind; [apply sp_simple_string; assumption|]. cbv beta. intros x t t' HRt _ Hx.
    apply sp_new; [assumption|exact Hx|reflexivity|exact I|]. intros h u Hu. exists None, x. assumption.
  Qed.
  Lemma sp_back_ref s s' : R s s' -> sp (fun h t => named (s_store t) h) demangle_back_ref_name demangle_back_ref_name s s'.
  Proof.
    intros HR. unfold demangle_back_ref_name. lx. apply sp_ok_or. intros c _. apply sp_get.
    rewrite (r_names _ _ H). intros h u Hh. unfold ok_or in *. destruct (nth_error _ _) as [k|] eqn:Hk; [|discriminate]. injection Hh as <- <-.
    exists t'. split; [reflexivity|]. split; [assumption|]. split; [apply keeps_refl|].
    pose proof (r_nm _ _ H) as Hn. rewrite Forall_forall in Hn. destruct (Hn k (nth_error_In _ _ Hk)) as (x & Hx & _). exists None, x. assumption.
  Qed.
  Lemma sp_anon s s' : R s s' -> sp (fun h t => named (s_store t) h) (demangle_anonymous_namespace_name E) (demangle_anonymous_namespace_name E') s s'.
  Proof.
    intros HR. unfold demangle_anonymous_namespace_name. lx. txt. apply sp_ok_or. intros pos _. byt.
    eapply sp_bind; [apply sp_memorize; [auto|eassumption]|]. intros ? ? ? ? ? _. lx.
    apply sp_new; [assumption|cbn [strs_ok]; us|reflexivity|exact I|]. intros h u Hu. eexists None, _. eassumption.
  Qed.

  (** *** A step that may have used up the text: nothing follows it *)
  Definition spd {A} (Q : A -> st -> Prop) (m m' : M A) (s s' : st) : Prop := forall a t, m s = Ok (a, t) ->
    tx t = [] \/ exists t', m' s' = Ok (a, t') /\ R t t' /\ keeps (s_store s) (s_store t) /\ Q a t.
  Lemma sp_spd {A} (Q : A -> st -> Prop) m m' s s' : sp Q m m' s s' -> spd Q m m' s s'.
  Proof. intros H a t Hm. right. exact (H a t Hm). Qed.
  Lemma spd_if {A} (Q : A -> st -> Prop) (b : bool) m m' k k' s s' : (b = true -> spd Q m m' s s') -> (b = false -> spd Q k k' s s') ->
    spd Q (if b then m else k) (if b then m' else k') s s'.
  Proof. destruct b; auto. Qed.
  Lemma spd_text {B} (Q : B -> st -> Prop) f f' s s' : R s s' -> (spd Q (f (tx s)) (f' (tx s)) s s') -> spd Q (bind text f) (bind text f') s s'.
  Proof. intros HR Hf b u H. unfold bind, text in *. cbn [s_ms] in *. rewrite (r_ms _ _ HR). exact (Hf b u H). Qed.
  Lemma spd_lex {A B} (Q : B -> st -> Prop) (m : M A) f f' s s' : obl tt_ m m -> R s s' ->
    (forall a t t', R t t' -> keeps (s_store s) (s_store t) -> spd Q (f a) (f' a) t t') -> spd Q (bind m f) (bind m f') s s'.
  Proof.
    intros Hm HR Hf b u H. unfold bind in *. destruct (m s) as [[a t]| | |] eqn:Em; try discriminate.
    destruct (sp_obl tt_ _ _ s s' Hm HR a t Em) as (t' & -> & H2 & H3 & H4). destruct (Hf a t t' H2 H3 b u H) as [G|(u' & G1 & G2 & G3 & G4)]; [auto|].
    right. exists u'. split; [assumption|]. split; [assumption|]. split; [eapply keeps_trans; eassumption|assumption].
  Qed.
  (** The dead alternative stays dead... *)
  Lemma spd_bind {A B} (P : A -> st -> Prop) (Q : B -> st -> Prop) m m' f f' s s' : spd P m m' s s' ->
    (forall a t t', R t t' -> keeps (s_store s) (s_store t) -> P a t -> sp Q (f a) (f' a) t t') ->
    (forall a t b u, tx t = [] -> f a t = Ok (b, u) -> tx u = []) -> spd Q (bind m f) (bind m' f') s s'.
  Proof.
    intros Hm Hf Hd b u H. unfold bind in *. destruct (m s) as [[a t]| | |] eqn:Em; try discriminate.
    destruct (Hm a t Em) as [Ht|(t' & -> & H2 & H3 & H4)]; [left; eapply Hd; eassumption|].
    destruct (Hf a t t' H2 H3 H4 b u H) as (u' & G1 & G2 & G3 & G4).
    right. exists u'. split; [assumption|]. split; [assumption|]. split; [eapply keeps_trans; eassumption|assumption].
  Qed.
  (** ... until the text is needed. *)
  Lemma sp_bindd {A B} (P : A -> st -> Prop) (Q : B -> st -> Prop) m m' f f' s s' : spd P m m' s s' ->
    (forall a t t', R t t' -> keeps (s_store s) (s_store t) -> P a t -> sp Q (f a) (f' a) t t') ->
    (forall a t b u, tx t = [] -> f a t = Ok (b, u) -> False) -> sp Q (bind m f) (bind m' f') s s'.
  Proof.
    intros Hm Hf Hd b u H. unfold bind in *. destruct (m s) as [[a t]| | |] eqn:Em; try discriminate.
    destruct (Hm a t Em) as [Ht|(t' & -> & H2 & H3 & H4)]; [exfalso; eapply Hd; eassumption|].
    destruct (Hf a t t' H2 H3 H4 b u H) as (u' & G1 & G2 & G3 & G4).
    exists u'. split; [assumption|]. split; [assumption|]. split; [eapply keeps_trans; eassumption|assumption].
  Qed.

  (** *** Rendering a scope *)
  Lemma sim_store s s' : R s s' -> forall fuel, knot_sim E (s_store s) (fun _ => True) (out fuel E (s_store s)) (out fuel E' (s_store s')).
  Proof.
    intros HR fuel. apply sim_out; [assumption|exact (r_st _ _ HR)|]. intros h n _ Hn. destruct (r_ok _ _ HR h n Hn) as [H1 H2].
    split; [intros x c _; exact I|]. split; assumption.
  Qed.
  Lemma start kap : C E kap [] [].
  Proof.
    split; [split; [constructor|exact (le_pos _ _ V)]|]. split; [intros _ H; discriminate H|reflexivity].
  Qed.
  Lemma good_nil c : good (mkBuf [] c) []. Proof. split; [reflexivity|constructor]. Qed.
  Lemma render_scope scope (tail : str) s s' b : R s s' -> ustr tail -> tail <> [] ->
    run_w (w_str E (L "`") >> output E (s_store s) KSym scope >> w_str E tail) (mkBuf [] 0) s = Ok (b, s) ->
    exists y y' b', run_w (w_str E' (L "`") >> output E' (s_store s') KSym scope >> w_str E' tail) (mkBuf [] 0) s' = Ok (b', s') /\
      good b y /\ good b' y' /\ name_rel y y'.
  Proof.
    intros HR Hu Hn H. unfold run_w in *.
    destruct ((w_str E (L "`") >> output E (s_store s) KSym scope >> w_str E tail) (mkBuf [] 0)) as [b1 [[]| | |]] eqn:Hw; try discriminate H.
    injection H as <-. unfold w_seq in Hw |- *.
    destruct (w_str E (L "`") (mkBuf [] 0)) as [c1 [[]| | |]] eqn:W1; try discriminate Hw.
    destruct (output E (s_store s) KSym scope c1) as [c2 [[]| | |]] eqn:W2; try discriminate Hw.
    assert (Hs : simw (C E True) (C E True) (put E (L "`")) (put E' (L "`"))) by (apply sim_CC; [assumption|discriminate|us|reflexivity]).
    destruct (Hs _ _ _ _ (good_nil 0) (good_nil 0) (start True) c1 W1) as (c1' & y1 & y1' & W1' & G1 & G1' & R1). unfold put in W1'. rewrite W1'.
    unfold output in W2 |- *. rewrite <- (srel_len _ _ (r_st _ _ HR)).
    destruct (ks_var _ _ _ _ _ (sim_store s s' HR (S (length (s_store s)))) True KSym scope I _ _ _ _ G1 G1' R1 c2 W2) as (c2' & y2 & y2' & W2' & G2 & G2' & R2).
    rewrite W2'. destruct (put2 E E' V True tail tail c2 c2' y2 y2' b1 (del_refl _) Hn eq_refl Hu Hu G2 G2' R2 Hw) as (b1' & W3 & G3 & G3' & R3).
    unfold put in W3. rewrite W3. exists (y2 ++ tail), (y2' ++ tail), b1'. split; [reflexivity|]. split; [assumption|]. split; [assumption|].
    split; [apply G3|]. split; [apply G3'|]. split; [apply R3|]. rewrite !lastc_app. destruct (lastc_nonempty tail Hn) as [c ->]. reflexivity.
  Qed.
  Lemma run_w_st (w : W) b s r t : run_w w b s = Ok (r, t) -> t = s.
  Proof. unfold run_w. destruct (w b) as [? [[]| | |]]; try discriminate. intros H. injection H as _ <-. reflexivity. Qed.
  Lemma render_rel (scope : handle) (n : N) s s' : R s s' ->
    sp (fun h t => named (s_store t) h)
      (name <- render (fun sg => w_str E (L "`") >> output E sg KSym scope >> w_str E (L "'::`" ++ dec_N n ++ L "'")) ;; intern E (NNamed None name))
      (name <- render (fun sg => w_str E' (L "`") >> output E' sg KSym scope >> w_str E' (L "'::`" ++ dec_N n ++ L "'")) ;; intern E' (NNamed None name)) s s'.
  Proof.
    intros HR h u H. unfold render, bind, get in *.
    destruct (run_w (w_str E (L "`") >> output E (s_store s) KSym scope >> w_str E (L "'::`" ++ dec_N n ++ L "'")) (mkBuf [] 0) s) as [[b t]| | |] eqn:Hr; try discriminate H.
    pose proof (run_w_st _ _ _ _ _ Hr). subst t.
    destruct (render_scope scope (L "'::`" ++ dec_N n ++ L "'") s s' b HR) as (y & y' & b' & -> & G & G' & Hn); [us|discriminate|exact Hr|].
    unfold take_text in *. rewrite (proj1 G), from_utf8_utf8 in H by apply G. rewrite (proj1 G'), from_utf8_utf8 by apply G'. cbn [ok_or ret] in *.
    destruct (sp_intern2 (NNamed None y) (NNamed None y') s s' HR) with (a := h) (t := u) as (t' & H1 & H2 & H3 & H4); [split; [reflexivity|assumption]|reflexivity|exact I|exact H|].
    exists t'. split; [exact H1|]. split; [assumption|]. split; [assumption|]. exists None, y. assumption.
  Qed.
  Lemma render_st (w : store -> W) s r t : render w s = Ok (r, t) -> t = s.
  Proof.
    unfold render, bind, get. destruct (run_w _ _ s) as [[b u]| | |] eqn:Hr; try discriminate. pose proof (run_w_st _ _ _ _ _ Hr). subst u.
    unfold take_text, ok_or. destruct (from_utf8 _); [|discriminate]. intros H. injection H as _ <-. reflexivity.
  Qed.

  Variables K K' : knot.
  Hypothesis HKp : forall s s', R s s' -> spd any2 (k_parse K) (k_parse K') s s'.
  Hypothesis HKt : forall m s s', R s s' -> sp (fun h t => notvar (s_store t) h) (k_type K m) (k_type K' m) s s'.

  (** *** Scopes *)
  Lemma spd_local s s' : R s s' -> spd (fun h t => named (s_store t) h) (demangle_locally_scoped_name_piece E K) (demangle_locally_scoped_name_piece E' K') s s'.
  Proof.
    intros HR. unfold demangle_locally_scoped_name_piece. eapply spd_lex; [ob3|assumption|]. intros _ t t' H1 _.
    eapply spd_lex; [ob3|eassumption|]. intros [number neg] t1 t1' H2 _. apply spd_if; intros _; [apply sp_spd, sp_fail|].
    eapply spd_lex; [ob3|eassumption|]. intros _ t2 t2' H3 _. eapply spd_bind; [apply HKp; assumption| |].
    - intros scope u u' Hu _ _. apply render_rel; assumption.
    - intros scope u h v Hu Hh. unfold bind in Hh. destruct (render _ u) as [[nm u1]| | |] eqn:Hr; try discriminate.
      apply render_st in Hr. subst u1. unfold intern in Hh. destruct (_ <? _)%N; [discriminate|]. injection Hh as _ <-. exact Hu.
  Qed.
  Lemma spd_piece s s' : R s s' -> spd (fun h t => named (s_store t) h) (demangle_name_scope_piece E K) (demangle_name_scope_piece E' K') s s'.
  Proof.
    intros HR. unfold demangle_name_scope_piece. apply spd_text; [assumption|].
    apply spd_if; intros _; [apply sp_spd, sp_back_ref; assumption|]. rewrite (clean_sw _ (r_text _ _ HR)).
    apply spd_if; intros _; [apply sp_spd, sp_anon; assumption|].
    destruct (local_scope_pattern (tx s)) as [[]| | |]; [apply spd_local; assumption| | | |]; apply sp_spd; first [apply sp_simple_name; assumption|apply sp_panic].
  Qed.
  Section Chain.
    Variable P : store -> handle -> Prop.
    Hypothesis P_named : forall sg h, named sg h -> P sg h.
    Hypothesis P_keeps : forall a b h, keeps a b -> P a h -> P b h.
    Lemma dead_loop fuel acc t b u : tx t = [] -> scope_loop E K fuel acc t = Ok (b, u) -> False.
    Proof.
      intros Ht. destruct fuel; cbn [scope_loop]; [discriminate|]. unfold bind, eat_char, lift, try_consume_char, try_consume_char_if, bind, text.
      unfold tx in Ht. rewrite Ht. cbn [ret is_some]. cbn [s_ms set_ms]. rewrite Ht. discriminate.
    Qed.
    Lemma sp_scope_loop fuel : forall acc s s', R s s' -> Forall (P (s_store s)) acc ->
      sp (fun l t => Forall (P (s_store t)) l) (scope_loop E K fuel acc) (scope_loop E' K' fuel acc) s s'.
    Proof.
      induction fuel as [|fuel IH]; intros acc s s' HR Ha; cbn [scope_loop]; [apply sp_fuel|]. lx.
      assert (Ha' : Forall (P (s_store t)) acc) by (eapply Forall_impl; [|exact Ha]; intros h; apply P_keeps; assumption).
      apply sp_if; intros _; [apply sp_ret; assumption|]. txt. apply sp_if; intros _; [apply sp_fail|].
      eapply sp_bindd; [apply spd_piece; assumption| |].
      - cbv beta. intros h u u' Hu Hk Hh. apply IH; [assumption|]. constructor; [auto|]. eapply Forall_impl; [|exact Ha']. intros i. apply P_keeps; assumption.
      - intros h u l v. apply dead_loop.
    Qed.
    Lemma sp_chain id s s' : R s s' -> P (s_store s) id -> (forall sg h, P sg h -> notvar sg h) ->
      sp (fun q t => exists c l, nth_error (s_store t) q = Some (NQual c) /\ nth_error (s_store t) c = Some (NNodes l) /\ Forall (P (s_store t)) l)
        (demangle_name_scope_chain E K id) (demangle_name_scope_chain E' K' id) s s'.
    Proof.
      intros HR Hid HPn. unfold demangle_name_scope_chain. txt. eapply sp_bind; [apply sp_scope_loop; [assumption|constructor; [assumption|constructor]]|].
      cbv beta. intros l t t' HRt _ Hl. eapply sp_new_bind; [assumption|exact I|reflexivity| |].
      - cbn [tag_ok]. eapply Forall_impl; [|exact Hl]. intros h. apply HPn.
      - intros c u u' HRu Hk Hc. intros q v Hv. destruct (sp_intern (NQual c) u u' HRu I eq_refl I q v Hv) as (v' & H1 & H2 & H3 & H4).
        exists v'. split; [assumption|]. split; [assumption|]. split; [assumption|]. exists c, l. split; [assumption|].
        destruct (H3 c _ Hc) as (m & Hm & _ & Hf). rewrite (Hf eq_refl) in Hm. split; [assumption|].
        eapply Forall_impl; [|exact Hl]. intros h Hh. eapply P_keeps; [eassumption|]. eapply P_keeps; eassumption.
    Qed.
  End Chain.
  Lemma sp_chain_plain id s s' : R s s' -> named (s_store s) id -> sp (fun q t => plain (s_store t) q) (demangle_name_scope_chain E K id) (demangle_name_scope_chain E' K' id) s s'.
  Proof. intros HR Hid. eapply sp_weak; [|apply (sp_chain named); eauto using keeps_named, named_notvar]. intros q t H. exact H. Qed.
  Lemma sp_chain_any id s s' : R s s' -> notvar (s_store s) id -> sp any2 (demangle_name_scope_chain E K id) (demangle_name_scope_chain E' K' id) s s'.
  Proof. intros HR Hid. eapply sp_any, (sp_chain notvar); eauto using keeps_notvar, named_notvar. Qed.

  (** *** Identifiers *)
  Ltac nw := eapply sp_new_bind; [eassumption|try exact I|reflexivity|try exact I|intros ? ? ? ? ? ?].
  Ltac nv := intros ? ? HH; eexists; split; [exact HH|reflexivity].
  Lemma sp_new_nv n s s' : R s s' -> strs_ok n -> is_desc n = false -> is_var n = false -> tag_ok (s_store s) n ->
    sp (fun h t => notvar (s_store t) h) (intern E n) (intern E' n) s s'.
  Proof. intros H1 H2 H3 H4 H5. apply sp_new; try assumption. intros h t H. exists n. auto. Qed.
  Ltac inv := apply sp_new_nv; [eassumption|try exact I|reflexivity|reflexivity|try exact I].
  Lemma sp_code_group g s s' : R s s' -> sp (fun h t => notvar (s_store t) h) (demangle_function_identifier_code_group E g) (demangle_function_identifier_code_group E' g) s s'.
  Proof.
    intros HR. unfold demangle_function_identifier_code_group. lx. cbv zeta.
    assert (Hi : sp (fun h t => notvar (s_store t) h) (op <- translate_intrinsic a g ;; intern E (NIntrinsic None op)) (op <- translate_intrinsic a g ;; intern E' (NIntrinsic None op)) t t').
    { lx. inv. }
    destruct g; [| exact Hi |].
    - apply sp_if; intros _; [inv|]. apply sp_if; intros _; [inv|exact Hi].
    - apply sp_if; intros _; [|exact Hi]. eapply sp_bind; [apply sp_simple_string; assumption|]. cbv beta. intros x u u' Hu _ Hx. inv. exact Hx.
  Qed.
  Lemma sp_code s s' : R s s' -> sp (fun h t => notvar (s_store t) h) (demangle_function_identifier_code E) (demangle_function_identifier_code E') s s'.
  Proof.
    intros HR. unfold demangle_function_identifier_code. lx. lx. apply sp_if; intros _; [apply sp_code_group; assumption|].
    lx. apply sp_if; intros _; apply sp_code_group; assumption.
  Qed.
  Lemma sp_utype mem s s' : R s s' -> sp (fun h t => named (s_store t) h) (demangle_unqualified_type_name E K mem) (demangle_unqualified_type_name E' K' mem) s s'.
  Proof.
    intros HR. unfold demangle_unqualified_type_name. txt. rewrite (clean_sw _ (r_text _ _ HR)).
    apply sp_if; intros _; [apply sp_back_ref; assumption|apply sp_simple_name; assumption].
  Qed.
  Lemma sp_usym b s s' : R s s' -> sp (fun h t => notvar (s_store t) h) (demangle_unqualified_symbol_name E K b) (demangle_unqualified_symbol_name E' K' b) s s'.
  Proof.
    intros HR. unfold demangle_unqualified_symbol_name. txt. rewrite (clean_sw _ (r_text _ _ HR)).
    apply sp_if; intros _; [eapply sp_weak; [|apply sp_back_ref; assumption]; intros ? ?; apply named_notvar|].
    apply sp_if; intros _; [apply sp_code; assumption|]. eapply sp_weak; [|apply sp_simple_name; assumption]; intros ? ?; apply named_notvar.
  Qed.
  Lemma sp_fqt s s' : R s s' -> sp (fun h t => plain (s_store t) h) (demangle_fully_qualified_type_name E K) (demangle_fully_qualified_type_name E' K') s s'.
  Proof.
    intros HR. unfold demangle_fully_qualified_type_name. eapply sp_bind; [apply sp_utype; assumption|]. cbv beta. intros. apply sp_chain_plain; assumption.
  Qed.
  Ltac dn := let n := fresh "n" in let Hn := fresh "Hn" in let Hk := fresh "Hk" in intros n Hn Hk ?; destruct n; try discriminate Hk; try discriminate.
  Ltac nm := let Hk := fresh "Hk" in intros ? ? ? ? Hk; try discriminate Hk.
  Lemma sp_fqs s s' : R s s' -> sp any2 (demangle_fully_qualified_symbol_name E K) (demangle_fully_qualified_symbol_name E' K') s s'.
  Proof.
    intros HR. unfold demangle_fully_qualified_symbol_name. eapply sp_bind; [apply sp_usym; assumption|]. cbv beta. intros id t t' Ht _ Hid.
    eapply sp_bind; [apply sp_chain_any; assumption|]. intros qn u u' Hu _ _.
    assert (Hr : forall z : handle, sp any2 (ret z) (ret z) u u') by (intros; apply sp_ret; [assumption|exact I]).
    apply sp_res2; [assumption| |intros; apply Hr]. dn; try apply Hr.
    apply sp_res2; [assumption| |nm]. dn. apply sp_res2; [assumption| |nm]. dn.
    eapply (sp_bind any2).
    - apply sp_if; intros _; [apply sp_fail|]. match goal with |- context [nth_error ?x ?y] => destruct (nth_error x y) end; [|apply sp_fail].
      apply sp_res2; [assumption| |]; intros; apply sp_if; intros; first [apply sp_fail|apply sp_ret; [assumption|exact I]].
    - intros cl2 v v' Hv _ _. apply sp_mod_bind; [apply tame_set_class|assumption|]. intros. apply sp_ret; [assumption|exact I].
  Qed.

  (** *** Types *)
  Lemma sp_custom s s' : R s s' -> sp (fun h t => notvar (s_store t) h) (demangle_custom_type E K) (demangle_custom_type E' K') s s'.
  Proof.
    intros HR. unfold demangle_custom_type. lx. eapply sp_bind; [apply sp_utype; eassumption|]. cbv beta. intros id u u' Hu _ Hid. lx.
    apply sp_if; intros _; [|apply sp_fail]. inv. cbn [tag_ok]. eapply keeps_named; eassumption.
  Qed.
  Lemma sp_class s s' : R s s' -> sp (fun h t => notvar (s_store t) h) (demangle_class_type E K) (demangle_class_type E' K') s s'.
  Proof.
    intros HR. unfold demangle_class_type. lx. lx. eapply sp_bind; [apply sp_fqt; eassumption|]. cbv beta. intros q u u' Hu _ Hq. inv. exact Hq.
  Qed.
  Lemma R_fps s s' h : R s s' -> notvar (s_store s) h -> R (set_fps (s_fps s ++ [h]) s) (set_fps (s_fps s ++ [h]) s').
  Proof.
    intros [H1 H2 H3 H4 H5 H6 H7 H8] Hh. constructor; cbn [s_ms s_fps s_names s_store set_fps]; try assumption; [reflexivity|].
    apply Forall_app. split; [assumption|]. constructor; [assumption|constructor].
  Qed.
  Lemma sp_params fuel : forall acc s s', R s s' -> Forall (notvar (s_store s)) acc ->
    sp (fun l t => Forall (notvar (s_store t)) l) (params_loop K fuel acc) (params_loop K' fuel acc) s s'.
  Proof.
    induction fuel as [|fuel IH]; intros acc s s' HR Ha; cbn [params_loop]; [apply sp_fuel|]. txt.
    apply sp_if; intros _; [apply sp_ret; [assumption|apply Forall_rev; assumption]|]. apply sp_if; intros _; [apply sp_fail|].
    lx. assert (Ha' : Forall (notvar (s_store t)) acc) by (eapply Forall_impl; [|exact Ha]; intros h; apply keeps_notvar; assumption).
    destruct a as [d|].
    - apply sp_get. rewrite (r_fps _ _ H). apply sp_ok_or. intros h Hh. apply IH; [assumption|]. constructor; [|assumption].
      pose proof (r_fpv _ _ H) as Hf. rewrite Forall_forall in Hf. apply Hf. eapply nth_error_In; eassumption.
    - lx. eapply sp_bind; [apply HKt; assumption|]. cbv beta. intros tn u u' Hu Hk Htn. eapply sp_lex; [ob3|eassumption|]. intros new v v' Hv Hkv _.
      apply sp_if; intros _; [apply sp_panic|].
      assert (Htn' : notvar (s_store v) tn) by (eapply keeps_notvar; eassumption).
      assert (Ha2 : Forall (notvar (s_store v)) acc).
      { eapply Forall_impl; [|exact Ha']; intros h Hh. eapply keeps_notvar; [|exact Hh]. eauto 6 using keeps_trans. }
      eapply (sp_bind any2).
      + destruct (a - new) as [|[|z]]; [apply sp_fail|apply sp_ret; [assumption|exact I]|].
        intros r w Hw. injection Hw as <- <-. rewrite (r_fps _ _ Hv). eexists. split; [reflexivity|].
        destruct (length (s_fps v) <? 10); [|split; [assumption|split; [apply keeps_refl|exact I]]].
        split; [apply R_fps; assumption|]. split; [apply keeps_refl|exact I].
      + intros _ w w' Hw Hkw _. apply IH; [assumption|]. constructor; [eapply keeps_notvar; eassumption|].
        eapply Forall_impl; [|exact Ha2]. intros h. apply keeps_notvar; assumption.
  Qed.
  Lemma sp_param_list s s' : R s s' -> sp any2 (demangle_function_parameter_list E K) (demangle_function_parameter_list E' K') s s'.
  Proof.
    intros HR. unfold demangle_function_parameter_list. lx. apply sp_if; intros _; [apply sp_ret; [assumption|exact I]|]. txt.
    eapply sp_bind; [apply sp_params; [assumption|constructor]|]. cbv beta. intros l u u' Hu _ Hl. nw; [exact Hl|].
    lx. apply sp_if; intros _; [apply sp_ret; [assumption|exact I]|]. lx. apply sp_if; intros _; [apply sp_ret; [assumption|exact I]|apply sp_fail].
  Qed.
  Lemma sp_function b s s' : R s s' -> sp (fun h t => notvar (s_store t) h) (demangle_function_type E K b) (demangle_function_type E' K' b) s s'.
  Proof.
    intros HR. unfold demangle_function_type. lx. destruct a as [quals rq]. lx. lx. eapply (sp_bind any2).
    - apply sp_if; intros _; [apply sp_ret; [eassumption|exact I]|]. eapply sp_bind; [apply HKt; eassumption|]. intros. apply sp_ret; [assumption|exact I].
    - intros rt u u' Hu _ _. eapply sp_bind; [apply sp_param_list; assumption|]. intros [params variadic] v v' Hv _ _. lx. inv.
  Qed.
  Lemma sp_pointer s s' : R s s' -> sp (fun h t => notvar (s_store t) h) (demangle_pointer_type E K) (demangle_pointer_type E' K') s s'.
  Proof.
    intros HR. unfold demangle_pointer_type. lx. destruct a as [quals aff]. lx. eapply (sp_bind any2).
    - apply sp_if; intros _.
      + eapply sp_bind; [apply sp_function; eassumption|]. intros. apply sp_ret; [assumption|exact I].
      + lx. eapply sp_bind; [apply HKt; eassumption|]. intros. apply sp_ret; [assumption|exact I].
    - intros [q p] u u' Hu _ _. inv.
  Qed.
  Lemma sp_member s s' : R s s' -> sp (fun h t => notvar (s_store t) h) (demangle_member_pointer_type E K) (demangle_member_pointer_type E' K') s s'.
  Proof.
    intros HR. unfold demangle_member_pointer_type. lx. destruct a as [quals aff]. destruct aff; try apply sp_fail. lx. lx. apply sp_if; intros _.
    - eapply sp_bind; [apply sp_fqt; eassumption|]. intros cls u u' Hu _ _. eapply sp_bind; [apply sp_function; eassumption|]. intros. inv.
    - lx. destruct a1 as [pq mem]. apply sp_if; intros _; [|apply sp_fail]. eapply sp_bind; [apply sp_fqt; eassumption|]. intros cls u u' Hu _ _.
      eapply sp_bind; [apply HKt; eassumption|]. intros p v v' Hv _ _. apply sp_mod_bind; [apply tame_quals|assumption|]. intros. inv.
  Qed.
  Lemma sp_dims fuel : forall rank acc s s', R s s' -> Forall (notvar (s_store s)) acc ->
    sp (fun l t => Forall (notvar (s_store t)) l) (dims_loop E fuel rank acc) (dims_loop E' fuel rank acc) s s'.
  Proof.
    induction fuel as [|fuel IH]; intros rank acc s s' HR Ha; cbn [dims_loop];
      (apply sp_if; intros _; [apply sp_ret; [assumption|apply Forall_rev; assumption]|]); [apply sp_fuel|].
    lx. destruct a as [v neg]. apply sp_if; intros _; [apply sp_fail|]. nw. apply IH; [assumption|]. constructor; [eexists; split; [eassumption|reflexivity]|].
    eapply Forall_impl; [|exact Ha]. intros i Hh. eapply keeps_notvar; [|exact Hh]. eauto 6 using keeps_trans.
  Qed.
  Lemma sp_array s s' : R s s' -> sp (fun h t => notvar (s_store t) h) (demangle_array_type E K) (demangle_array_type E' K') s s'.
  Proof.
    intros HR. unfold demangle_array_type. lx. lx. destruct a0 as [rank neg]. apply sp_if; intros _; [apply sp_fail|]. txt.
    eapply sp_bind; [apply sp_dims; [eassumption|constructor]|]. cbv beta. intros l u u' Hu _ Hl. nw; [exact Hl|]. lx. lx.
    eapply sp_bind; [apply HKt; eassumption|]. intros. inv.
  Qed.
  Lemma sp_type m s s' : R s s' -> sp (fun h t => notvar (s_store t) h) (demangle_type E K m) (demangle_type E' K' m) s s'.
  Proof.
    intros HR. unfold demangle_type. lx. txt. apply sp_if; intros _; [apply sp_fail|]. eapply (sp_bind (fun h t => notvar (s_store t) h)).
    - apply sp_if; intros _; [apply sp_class; assumption|]. apply sp_if; intros _.
      { destruct (is_member_pointer (tx t)) as [[]|]; [apply sp_member; assumption|apply sp_pointer; assumption|apply sp_fail]. }
      apply sp_if; intros _; [apply sp_array; assumption|]. apply sp_if; intros _.
      { lx. apply sp_if; intros _; [apply sp_function; assumption|]. lx. apply sp_if; intros _; [apply sp_function; assumption|apply sp_fail]. }
      apply sp_if; intros _; [apply sp_custom; assumption|]. unfold demangle_primitive_type. lx. inv.
    - cbv beta. intros ty u u' Hu _ Hty. apply sp_mod_bind; [apply tame_quals|assumption|]. intros v v' Hv Hk. apply sp_ret; [assumption|]. eapply keeps_notvar; eassumption.
  Qed.

  (** *** Symbols *)
  Ltac rt := apply sp_ret; [eassumption|exact I].
  Ltac in1 := eapply sp_any, sp_intern; [eassumption|try exact I|reflexivity|try exact I].
  Lemma sp_uid q s s' : R s s' -> sp any2 (unqualified_identifier q) (unqualified_identifier q) s s'.
  Proof.
    intros HR. unfold unqualified_identifier. apply sp_res2; [assumption| |nm]. dn. apply sp_res2; [assumption| |nm]. dn.
    match goal with |- context [rev ?x] => destruct (rev x) as [|h0 r0] end; [rt|]. apply sp_res2; [assumption| |]; intros; rt.
  Qed.
  Lemma sp_variable sc s s' : R s s' -> sp any2 (demangle_variable_encoding E K sc) (demangle_variable_encoding E' K' sc) s s'.
  Proof.
    intros HR. unfold demangle_variable_encoding. eapply sp_bind; [apply HKt; assumption|]. intros ty t t' Ht _ _.
    assert (Hother : sp any2 ('(q, _) <- demangle_qualifiers ;; modify KType ty (set_quals q)) ('(q, _) <- demangle_qualifiers ;; modify KType ty (set_quals q)) t t').
    { lx. destruct a as [q b]. apply sp_modify; [apply tame_quals|assumption|intros; exact I]. }
    apply sp_res2; [assumption| |nm]. intros n Hn Hk Hnn. eapply (sp_bind any2); [|intros; in1].
    destruct n; try exact Hother. lx. apply sp_mod_bind; [apply tame_quals|assumption|]. intros u u' Hu _.
    apply sp_res2; [assumption| |nm]. dn. eapply sp_lex; [apply obl_quals|eassumption|]. intros [extra b0] ? ? ? ? ?. eapply (sp_bind any2); [|intros; apply sp_modify; [apply tame_quals|assumption|intros; exact I]].
    match goal with |- sp _ (match ?o with _ => _ end) _ _ _ => destruct o end; [|rt]. eapply sp_bind; [apply sp_fqt; eassumption|]. intros; rt.
  Qed.
  Lemma sp_function_encoding s s' : R s s' -> sp any2 (demangle_function_encoding E K) (demangle_function_encoding E' K') s s'.
  Proof.
    intros HR. unfold demangle_function_encoding. lx. txt. apply sp_if; intros _; [apply sp_fail|]. lx. cbv zeta. lx.
    eapply (sp_bind any2).
    - apply sp_if; intros _; [in1|]. eapply sp_any, sp_function; eassumption.
    - intros fsn u u' Hu _ _. eapply (sp_bind any2).
      + match goal with |- sp _ (match ?o with _ => _ end) _ _ _ => destruct o end; [|rt]. apply sp_res2; [assumption| |nm]. dn. in1.
      + intros sig v v' Hv _ _. apply sp_mod_bind; [apply tame_class|assumption|]. intros. in1.
  Qed.
  Lemma sp_encoded name s s' : R s s' -> sp any2 (demangle_encoded_symbol E K name) (demangle_encoded_symbol E' K' name) s s'.
  Proof.
    intros HR. unfold demangle_encoded_symbol. txt. apply sp_ok_or. intros c _. apply sp_if; intros _.
    - lx. apply sp_variable; assumption.
    - eapply sp_bind; [apply sp_function_encoding; assumption|]. intros fsn t t' Ht _ _. apply sp_res2; [assumption| |nm]. dn.
      apply sp_res2; [assumption| |nm]. intros sn Hsn Hks Hns. eapply sp_bind; [apply sp_uid; assumption|]. intros o u u' Hu _ _.
      apply sp_ok_or. intros uqn _. apply sp_mod_bind; [apply tame_target|assumption|]. intros; rt.
  Qed.
  Lemma sp_declarator s s' : R s s' -> sp any2 (demangle_declarator E K) (demangle_declarator E' K') s s'.
  Proof.
    intros HR. unfold demangle_declarator. eapply sp_bind; [apply sp_fqs; assumption|]. intros qn t t' Ht _ _.
    eapply sp_bind; [apply sp_encoded; assumption|]. intros sym u u' Hu _ _. apply sp_mod_bind; [apply tame_sym|assumption|]. intros v v' Hv _.
    eapply sp_bind; [apply sp_uid; assumption|]. intros o w w' Hw _ _. apply sp_ok_or. intros uqn _.
    apply sp_res2; [assumption| |intros; rt]. intros n Hn Hk Hnn. destruct n; try rt. destruct target; [rt|apply sp_fail].
  Qed.

  (** *** Specials *)
  Lemma sp_table k s s' : R s s' -> sp any2 (demangle_special_table_symbol_node E K k) (demangle_special_table_symbol_node E' K' k) s s'.
  Proof.
    intros HR. unfold demangle_special_table_symbol_node. eapply (sp_bind (fun x t => ustr x)).
    { destruct k; first [apply sp_fail|apply sp_ret; [assumption|us]]. }
    cbv beta. intros name t t' Ht _ Hu. nw; [exact Hu|]. eapply sp_bind; [apply sp_chain_any; [eassumption|eexists; split; [eassumption|reflexivity]]|].
    intros qn u u' Hu' _ _. lx. apply sp_ok_or. intros o _. lx. destruct a0 as [quals b]. lx. eapply (sp_bind any2); [|intros; in1].
    apply sp_if; intros _; [rt|]. eapply sp_bind; [apply sp_fqt; eassumption|]. intros; rt.
  Qed.
  Lemma sp_guard th s s' : R s s' -> sp any2 (demangle_local_static_guard E K th) (demangle_local_static_guard E' K' th) s s'.
  Proof.
    intros HR. unfold demangle_local_static_guard. nw. eapply sp_bind; [apply sp_chain_any; [eassumption|eexists; split; [eassumption|reflexivity]]|].
    intros qn u u' Hu _ _. lx. lx. txt. eapply (sp_bind any2); [|intros; in1]. apply sp_if; intros _; [rt|]. lx. lx.
    apply sp_modify; [apply tame_scope|assumption|intros; exact I].
  Qed.
  Lemma sp_untyped name s s' : ustr name -> R s s' -> sp any2 (demangle_untyped_variable E K name) (demangle_untyped_variable E' K' name) s s'.
  Proof.
    intros Hn HR. unfold demangle_untyped_variable. nw; [exact Hn|]. eapply sp_bind; [apply sp_chain_any; [eassumption|eexists; split; [eassumption|reflexivity]]|].
    intros qn u u' Hu _ _. lx. apply sp_if; intros _; [in1|apply sp_fail].
  Qed.
  Lemma sp_rtti_base s s' : R s s' -> sp any2 (demangle_rtti_base_class_descriptor_node E K) (demangle_rtti_base_class_descriptor_node E' K') s s'.
  Proof.
    intros HR. unfold demangle_rtti_base_class_descriptor_node. lx. lx. lx. lx. lx. lx. lx. lx. nw.
    eapply sp_bind; [apply sp_chain_any; [eassumption|eexists; split; [eassumption|reflexivity]]|]. intros qn u u' Hu _ _. lx. in1.
  Qed.
  Lemma sp_synth id s s' : R s s' -> notvar (s_store s) id -> sp any2 (synthesize_from_id E id) (synthesize_from_id E' id) s s'.
  Proof. intros HR Hid. unfold synthesize_from_id. nw; [cbn [tag_ok]; constructor; [assumption|constructor]|]. in1. Qed.
  Lemma sp_synth_name x s s' : R s s' -> ustr x -> sp any2 (synthesize_from_name E x) (synthesize_from_name E' x) s s'.
  Proof. intros HR Hx. unfold synthesize_from_name. nw; [exact Hx|]. apply sp_synth; [assumption|]. eexists; split; [eassumption|reflexivity]. Qed.
  Lemma sp_stub d s s' : R s s' -> sp any2 (demangle_init_fini_stub E K d) (demangle_init_fini_stub E' K' d) s s'.
  Proof.
    intros HR. unfold demangle_init_fini_stub. lx. eapply sp_bind; [apply sp_declarator; assumption|]. intros sym u u' Hu _ _.
    apply sp_res2; [assumption| |nm]. intros n Hn Hk Hnn. destruct n; try apply sp_fail.
    - lx. eapply sp_bind; [apply sp_function_encoding; eassumption|]. intros fsn v v' Hv _ _. nw.
      eapply sp_bind; [apply sp_synth; [eassumption|eexists; split; [eassumption|reflexivity]]|]. intros nm0 w w' Hw _ _.
      apply sp_mod_bind; [apply tame_func|assumption|]. intros; rt.
    - apply sp_if; intros _; [apply sp_fail|]. apply sp_ok_or. intros qn _. nw.
      eapply sp_bind; [apply sp_synth; [eassumption|eexists; split; [eassumption|reflexivity]]|]. intros nm0 w w' Hw _ _.
      apply sp_mod_bind; [apply tame_func|assumption|]. intros; rt.
  Qed.
  Lemma sp_vcall s s' : R s s' -> sp any2 (demangle_vcall_thunk_node E K) (demangle_vcall_thunk_node E' K') s s'.
  Proof.
    intros HR. unfold demangle_vcall_thunk_node. nw. eapply sp_bind; [apply sp_chain_any; [eassumption|eexists; split; [eassumption|reflexivity]]|].
    intros qn u u' Hu _ _. lx. lx. apply sp_mod_bind; [apply tame_vcall|assumption|]. intros v v' Hv _. lx. lx. nw. in1.
  Qed.

  (** *** String literals *)
  Definition goodb (b : buf) : Prop := exists x, good b x.
  Lemma w_str_eq x b : w_str E x b = w_str E' x b.
  Proof. apply w_str_ext; [exact (le_out _ _ V)|exact Hgrow]. Qed.
  Lemma ustr_escape c : ustr (escaped_char c).
  Proof.
    rewrite escape_eq. eapply Forall_impl; [|apply printable_ascii, printable_escape]. cbv beta. intros x Hx. unfold scalar.
    destruct (N.ltb_spec x 0xD800)%N; [reflexivity|lia].
  Qed.
  Lemma obl_write (c : bool) x b : ustr x -> goodb b -> obl goodb (run_w (w_if c (w_str E x)) b) (run_w (w_if c (w_str E' x)) b).
  Proof.
    intros Hx [y Hy]. assert (He : w_if c (w_str E x) b = w_if c (w_str E' x) b) by (destruct c; [apply w_str_eq|reflexivity]).
    assert (Hg : forall b1, w_if c (w_str E' x) b = (b1, Ok tt) -> goodb b1).
    { destruct c; cbn [w_if]; intros b1 H; [|injection H as <-; exists y; assumption]. unfold w_str in H. destruct x as [|z x]; [injection H as <-; exists y; assumption|].
      remember (z :: x) as zx. cbv zeta in H. destruct (_ <? _)%N; [|discriminate]. injection H as <-. exists (y ++ zx). destruct Hy as [H1 H2].
      split; [cbn [b_bytes]; rewrite H1, utf8_app; reflexivity|]. apply Forall_app. auto. }
    intros s r t H. unfold run_w in *. rewrite He in H. destruct (w_if c (w_str E' x) b) as [b1 [[]| | |]]; try discriminate. injection H as <- <-.
    split; [exists []; reflexivity|]. split; [symmetry; apply set_ms_id|]. split; [apply Hg; reflexivity|].
    intros s' Hs. rewrite set_ms_eq by assumption. reflexivity.
  Qed.
  Lemma obl_wide fuel : forall len tr b, goodb b -> obl goodb (wide_loop E fuel len tr b) (wide_loop E' fuel len tr b).
  Proof.
    induction fuel as [|fuel IH]; intros len tr b Hb; cbn [wide_loop]; [apply obl_fuel|]. eapply (obl_bind tt_); [ob3|]. intros d _.
    apply obl_if; intros _; [apply obl_ret; assumption|]. eapply (obl_bind tt_); [ob3|]. intros x _. apply obl_if; intros _; [apply obl_fail|].
    eapply (obl_bind tt_); [ob3|]. intros w _. eapply obl_bind; [apply obl_write; [apply ustr_escape|assumption]|]. intros b1 Hb1. apply IH; assumption.
  Qed.
  Lemma obl_narrow fuel : forall acc, obl tt_ (narrow_loop fuel acc) (narrow_loop fuel acc).
  Proof. induction fuel as [|fuel IH]; intros acc; cbn [narrow_loop]; ob3. apply IH. Qed.
  Lemma obl_nout bytes sz num : forall count i tr b, goodb b -> obl goodb (narrow_out E bytes sz num i count tr b) (narrow_out E' bytes sz num i count tr b).
  Proof.
    induction count as [|count IH]; intros i tr b Hb; cbn [narrow_out]; [apply obl_ret; assumption|].
    eapply (obl_bind tt_); [ob3|]. intros c _. eapply obl_bind; [apply obl_write; [apply ustr_escape|assumption]|]. intros b1 Hb1. apply IH; assumption.
  Qed.
  Lemma goodb_nil c : goodb (mkBuf [] c). Proof. exists []. apply good_nil. Qed.
  Lemma sp_string s s' : R s s' -> sp any2 (demangle_string_literal E) (demangle_string_literal E') s s'.
  Proof.
    intros HR. unfold demangle_string_literal. lx. lx. lx. lx. destruct a2 as [len neg]. apply sp_if; intros _; [apply sp_fail|]. txt. apply sp_ok_or. intros crc _.
    lx. apply sp_ok_or. intros o _. txt. apply sp_if; intros _; [apply sp_fail|].
    eapply sp_bind; [eapply (sp_obl (fun p => goodb (fst (fst p)))); [|eassumption]|].
    - apply obl_if; intros _; cbv zeta.
      + eapply obl_bind; [apply obl_wide, goodb_nil|]. intros b Hb. apply obl_ret. exact Hb.
      + eapply (obl_bind tt_); [apply obl_narrow|]. intros bytes _. cbv zeta. eapply (obl_bind tt_); [ob3|]. intros sz _.
        eapply (obl_bind tt_); [ob3|]. intros k _. eapply obl_bind; [apply obl_nout, goodb_nil|]. intros b Hb. apply obl_ret. exact Hb.
    - cbv beta. intros [[ob k] tr] u u' Hu _ [Hob _]. cbn [fst] in Hob. destruct Hob as [x [H1x H2x]]. unfold take_text. rewrite H1x, from_utf8_utf8 by exact H2x.
      apply sp_ok_or. intros y Hy. injection Hy as <-. in1. exact H2x.
  Qed.
  Lemma sp_rtti s s' : R s s' -> sp any2 (rtti_type_descriptor E K) (rtti_type_descriptor E' K') s s'.
  Proof.
    intros HR. unfold rtti_type_descriptor. eapply sp_bind; [apply HKt; assumption|]. intros ty u u' Hu _ _. lx. txt. apply sp_if; intros _; [|apply sp_fail].
    eapply sp_bind; [apply sp_synth_name; [assumption|us]|]. intros. in1.
  Qed.
  Lemma sp_special s s' : R s s' -> sp any2 (demangle_special_intrinsic E K) (demangle_special_intrinsic E' K') s s'.
  Proof.
    intros HR. unfold demangle_special_intrinsic. lx. destruct a as [k|]; [|rt]. eapply (sp_bind any2); [|intros; rt].
    destruct k; first [apply sp_table; assumption|apply sp_vcall; assumption|apply sp_guard; assumption|apply sp_string; assumption|apply sp_rtti; assumption
      |apply sp_untyped; [us|assumption]|apply sp_rtti_base; assumption|apply sp_stub; assumption|apply sp_fail].
  Qed.
  Lemma sp_md5 s s' : R s s' -> sp any2 (demangle_md5_name E) (demangle_md5_name E') s s'.
  Proof.
    intros HR. unfold demangle_md5_name. txt. pose proof (proj1 (r_text _ _ HR)) as Hc. lx. txt. apply sp_ok_or. intros stop _. lx. apply sp_ok_or. intros o _. lx. cbv zeta.
    destruct (split_bytes _ (tx s)) as [[md5 r]|] eqn:Hs; [|apply sp_panic]. apply split_bytes_spec in Hs. rewrite (proj1 Hs) in Hc. apply Forall_app in Hc.
    eapply sp_bind; [apply sp_synth_name; [eassumption|apply Hc]|]. intros. in1.
  Qed.

  (** *** The whole parser *)
  Lemma typeinfo_end s a t : demangle_typeinfo_name E K s = Ok (a, t) -> tx t = [].
  Proof.
    unfold demangle_typeinfo_name, bind. destruct (expect_char _ _ s) as [[[] s1]| | |]; try discriminate. destruct (k_type K QResult s1) as [[ty s2]| | |]; try discriminate.
    unfold text. destruct (ms_str (s_ms s2)) as [|c r] eqn:Ht; [|discriminate]. cbn [is_empty]. unfold intern. destruct (_ <? _)%N; [discriminate|].
    intros H. injection H as _ <-. exact Ht.
  Qed.
  Lemma sp_parse s s' : R s s' -> starts_with (L ".") (tx s) = false -> sp any2 (do_parse E K) (do_parse E' K') s s'.
  Proof.
    intros HR Hd. unfold do_parse. txt. rewrite Hd. apply sp_if; intros _; [apply sp_md5; assumption|]. lx.
    eapply sp_bind; [apply sp_special; assumption|]. intros [h|] u u' Hu _ _; [rt|apply sp_declarator; assumption].
  Qed.
  Lemma spd_parse s s' : R s s' -> spd any2 (do_parse E K) (do_parse E' K') s s'.
  Proof.
    intros HR. destruct (starts_with (L ".") (tx s)) eqn:Hd; [|apply sp_spd, sp_parse; assumption].
    intros a t H. left. unfold do_parse in H. unfold bind at 1 in H. unfold text at 1 in H. unfold tx in Hd. rewrite Hd in H. exact (typeinfo_end _ _ _ H).
  Qed.
End Parse.

Section Knots.
  Variables E E' : env.
  Hypothesis V : less E E'.
  Hypothesis HN : e_nodes E = e_nodes E'.
  Hypothesis Hgrow : e_grow E = e_grow E'.
  Lemma knots fuel : (forall s s', R s s' -> spd any2 (k_parse (knot_of E fuel)) (k_parse (knot_of E' fuel)) s s') /\
    (forall m s s', R s s' -> sp (fun h t => notvar (s_store t) h) (k_type (knot_of E fuel) m) (k_type (knot_of E' fuel) m) s s').
  Proof.
    induction fuel as [|fuel [I1 I2]]; cbn [knot_of k_parse k_type]; [split; intros; [apply sp_spd|]; apply sp_fuel|].
    split; intros; [eapply spd_parse; eassumption|eapply sp_type; eassumption].
  Qed.
End Knots.
