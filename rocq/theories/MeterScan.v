(** How many characters are examined by searches while parsing: every search is paid for by the text
    it passes over, or ends the parse.  Proof infrastructure for [Work]. *)
From Verif Require Import Parser Wf Lex Cost Effort Meter.

(** The text from its first ['?'] on: what a test for a local scope has not passed over yet. *)
Fixpoint unseen (t : str) : nat :=
  match t with
  | [] => 0
  | x :: r => if (x =? ch "?")%N then S (length r) else unseen r
  end.
Definition weight (t : str) : nat := 2 * length t + 4 * unseen t.
Definition later (t' t : str) : Prop := exists pre, t = pre ++ t'.
Notation tx s := (ms_str (s_ms s)).
(** From the text [t], with [b] to pay for searches, [m] leaves the weight of the text it leaves. *)
Definition sat {A} (b : nat) (t : str) (m : M A) : Prop := forall s, tx s = t ->
  let (r, c) := m s in
  match r with
  | Ok (_, s') => later (tx s') t /\ scanned c + weight (tx s') <= b
  | _ => scanned c <= b
  end.
Definition sn {A} (m : M A) : Prop := forall t, sat (weight t) t m.

Lemma later_refl t : later t t.
Proof. exists []. reflexivity. Qed.
Lemma later_trans a b c : later a b -> later b c -> later a c.
Proof. intros [x ->] [y ->]. exists (y ++ x). apply app_assoc. Qed.
Lemma unseen_le t : unseen t <= length t.
Proof. induction t as [|x t IH]; cbn [unseen length]; [lia|]. destruct (_ =? _)%N; lia. Qed.
Lemma later_unseen a b : later a b -> unseen a <= unseen b.
Proof.
  intros [pre ->]. induction pre as [|x pre IH]; cbn [app unseen]; [lia|]. pose proof (unseen_le a).
  destruct (_ =? _)%N; [rewrite app_length; lia|exact IH].
Qed.
Lemma later_length a b : later a b -> length a <= length b.
Proof. intros [pre ->]. rewrite app_length. lia. Qed.
Lemma later_weight a b : later a b -> weight a <= weight b.
Proof. intros H. pose proof (later_unseen _ _ H). pose proof (later_length _ _ H). unfold weight. lia. Qed.
Lemma reach_le c t : reach c t <= length t.
Proof. induction t as [|x t IH]; cbn [reach length]; [lia|]. destruct (_ =? _)%N; lia. Qed.
Lemma reach_found c a b : ~ In c a -> reach c (a ++ c :: b) = S (length a).
Proof.
  induction a as [|x a IH]; intros Hn; cbn [app reach length]; [rewrite N.eqb_refl; reflexivity|].
  destruct (N.eqb_spec x c) as [->|_]; [destruct Hn; left; reflexivity|]. rewrite IH; [reflexivity|]. intros H; apply Hn; right; exact H.
Qed.
Lemma reach_scope_unseen t : reach_scope t <= 4 * length t /\
  (forall r, t = ch "?" :: r -> reach_scope t + 4 * unseen r <= 4 * unseen t).
Proof.
  assert (H : forall r, reach (ch "?") r + unseen r <= S (length r)).
  { induction r as [|x r IH]; cbn [reach unseen length]; [lia|]. destruct (_ =? _)%N; lia. }
  split.
  - destruct t as [|x r]; cbn [reach_scope length]; [lia|]. destruct (_ =? _)%N; [|lia]. pose proof (reach_le (ch "?") r). lia.
  - intros r ->. cbn [reach_scope unseen]. rewrite N.eqb_refl. specialize (H r). lia.
Qed.

Section Rules.
  Ltac go := cbn [m_zero m_add m_one scanned]; lia.
  Lemma sat_weak {A} b0 b t (m : M A) : sat b0 t m -> b0 <= b -> sat b t m.
  Proof. intros H Hb s Hs. specialize (H s Hs). destruct (m s) as [[[a s']|e| |] c]; try lia. destruct H. split; [assumption|lia]. Qed.
  Lemma sn_sat {A} b t (m : M A) : sn m -> weight t <= b -> sat b t m.
  Proof. intros H Hb. eapply sat_weak; [apply H|exact Hb]. Qed.
  Lemma sn_bind {A B} (m : M A) (f : A -> M B) : sn m -> (forall a, sn (f a)) -> sn (bind m f).
  Proof.
    intros H Hf t s Hs. specialize (H t s Hs). unfold bind. destruct (m s) as [[[a s']|e| |] c]; try exact H.
    destruct H as [H1 H2]. specialize (Hf a (tx s') s' eq_refl). destruct (f a s') as [r c'].
    cbn [m_add m_one scanned]. destruct r as [[x s2]|e| |]; try lia. destruct Hf as [F1 F2]. split; [eapply later_trans; eassumption|lia].
  Qed.
  Lemma sat_bind {A B} b t (m : M A) (f : A -> M B) : sat b t m -> (forall a, sn (f a)) -> sat b t (bind m f).
  Proof.
    intros H Hf s Hs. specialize (H s Hs). unfold bind. destruct (m s) as [[[a s']|e| |] c]; try exact H.
    destruct H as [H1 H2]. specialize (Hf a (tx s') s' eq_refl). destruct (f a s') as [r c'].
    cbn [m_add m_one scanned]. destruct r as [[x s2]|e| |]; try lia. destruct Hf as [F1 F2]. split; [eapply later_trans; eassumption|lia].
  Qed.
  Lemma sn_ret {A} (a : A) : sn (ret a).
  Proof. intros t s Hs. unfold ret. rewrite Hs. split; [apply later_refl|go]. Qed.
  Lemma sn_fail {A} e : sn (@fail A e).
  Proof. intros t s Hs. unfold fail. go. Qed.
  Lemma sn_panic {A} : sn (@panic A).
  Proof. intros t s Hs. unfold panic. go. Qed.
  Lemma sn_nofuel {A} : sn (@nofuel A).
  Proof. intros t s Hs. unfold nofuel. go. Qed.
  Lemma sn_ok_or {A} (o : option A) e : sn (ok_or o e).
  Proof. destruct o; [apply sn_ret|apply sn_fail]. Qed.
  Lemma sn_op_n {A} k (f : st -> res (A * st)) : (forall s, match f s with Ok (_, s') => later (tx s') (tx s) | _ => True end) -> sn (op_n k f).
  Proof.
    intros H t s Hs. specialize (H s). unfold op_n. rewrite Hs in H. destruct (f s) as [[a s']|e| |]; cbn [scanned]; try lia.
    split; [exact H|]. apply later_weight in H. lia.
  Qed.
  Lemma sn_op {A} (f : st -> res (A * st)) : (forall s, match f s with Ok (_, s') => later (tx s') (tx s) | _ => True end) -> sn (op f).
  Proof. exact (sn_op_n 1 f). Qed.
  Lemma sn_same {A} (f : st -> res (A * st)) : (forall s, match f s with Ok (_, s') => tx s' = tx s | _ => True end) -> sn (op f).
  Proof. intros H. apply sn_op. intros s. specialize (H s). destruct (f s) as [[a s']|e| |]; auto. rewrite H. apply later_refl. Qed.
  Lemma sn_get : sn get.
  Proof. apply sn_same. intros s. reflexivity. Qed.
  Lemma sn_text : sn text.
  Proof. apply sn_same. intros s. reflexivity. Qed.
  Lemma sn_len : sn len_chars.
  Proof. apply sn_same. intros s. reflexivity. Qed.
  Lemma sn_res k h : sn (res_ k h).
  Proof. apply sn_same. intros s. unfold Parser.res_. destruct (resolve _ _ _); [reflexivity|exact I]. Qed.
  Lemma sn_run w b : sn (run_w w b).
  Proof. apply sn_same. intros s. unfold Parser.run_w. destruct (w b) as [b' [[]|e| |]]; auto. Qed.
  Lemma sn_update f : (forall s, s_ms (f s) = s_ms s) -> sn (update f).
  Proof. intros H. apply sn_same. intros s. cbv beta iota zeta. rewrite H. reflexivity. Qed.
  Lemma sn_intern E n : sn (intern E n).
  Proof. apply sn_op_n. intros s. unfold Parser.intern. destruct (_ <? _)%N; [exact I|]. apply later_refl. Qed.
  Lemma sn_modify k h f : sn (modify k h f).
  Proof. apply sn_same. intros s. unfold Parser.modify. destruct (resolve _ _ _); [reflexivity|exact I]. Qed.
  Lemma sn_render E w : sn (render E w).
  Proof.
    unfold render. apply sn_bind.
    - intros t s Hs. unfold show_event. rewrite Hs. cbn [scanned]. split; [apply later_refl|lia].
    - intros _. apply sn_bind; [apply sn_get|]. intros s. apply sn_bind; [apply sn_run|]. intros b. apply sn_ok_or.
  Qed.
  Lemma sn_lift {A} (f : mstring -> mres A) : (forall m, match f m with Ok (_, m') => later (ms_str m') (ms_str m) | _ => True end) -> sn (lift f).
  Proof. intros H. apply sn_op. intros s. specialize (H (s_ms s)). unfold Parser.lift. destruct (f (s_ms s)) as [[o m']|e| |]; try exact I. exact H. Qed.
  Lemma sn_eatif f : sn (eat_if f).
  Proof.
    apply sn_lift. intros m. unfold try_consume_char_if. destruct (ms_str m) as [|c r] eqn:Et; [rewrite Et; apply later_refl|].
    destruct (f c); [|rewrite Et; apply later_refl]. unfold ms_drop. destruct (_ <=? _); [|exact I]. exists [c]. reflexivity.
  Qed.
  Lemma sn_next e : sn (next_char e).
  Proof.
    unfold next_char. apply sn_bind; [|intros; apply sn_ok_or]. apply sn_lift. intros m. unfold try_consume.
    destruct (ms_str m) as [|c r] eqn:Et; [rewrite Et; apply later_refl|]. unfold ms_drop. destruct (_ <=? _); [|exact I]. exists [c]. reflexivity.
  Qed.
  Lemma sn_eat c : sn (eat_char c).
  Proof. unfold eat_char. apply sn_bind; [apply (sn_eatif (fun x => (x =? c)%N))|intros; apply sn_ret]. Qed.
  Lemma strip_later p s r : strip_prefix p s = Some r -> later r s.
  Proof.
    revert s. induction p as [|x p IH]; intros s H; cbn in H; [injection H as <-; apply later_refl|].
    destruct s as [|y s]; [discriminate H|]. destruct (_ =? _)%N; [|discriminate H]. destruct (IH s H) as [pre ->]. exists (y :: pre). reflexivity.
  Qed.
  Lemma sn_eats p : sn (eat_str p).
  Proof.
    unfold eat_str. apply sn_bind; [|intros; apply sn_ret]. apply sn_lift. intros m. unfold try_consume_str.
    destruct (strip_prefix p _) as [r|] eqn:Et; [|apply later_refl]. unfold ms_drop. destruct (_ <=? _); [|exact I]. eapply strip_later. exact Et.
  Qed.
  Lemma sn_expect c e : sn (expect_char c e).
  Proof. unfold expect_char. apply sn_bind; [apply sn_eat|]. intros []; [apply sn_ret|apply sn_fail]. Qed.
  Lemma sn_expects p e : sn (expect_str p e).
  Proof. unfold expect_str. apply sn_bind; [apply sn_eats|]. intros []; [apply sn_ret|apply sn_fail]. Qed.
  Lemma sn_first l : sn (eat_first l).
  Proof. induction l as [|p l IH]; cbn [eat_first]; [apply sn_ret|]. apply sn_bind; [apply sn_eats|]. intros []; [apply sn_ret|exact IH]. Qed.
  Lemma sn_special l : sn (consume_special l).
  Proof. induction l as [|[p k] l IH]; cbn [consume_special]; [apply sn_ret|]. apply sn_bind; [apply sn_eats|]. intros []; [apply sn_ret|exact IH]. Qed.
  Lemma sn_bytes n : sn (lift (try_consume_n_bytes n)).
  Proof.
    apply sn_lift. intros m. unfold try_consume_n_bytes. destruct (split_bytes n _) as [[a b]|] eqn:Et; [|apply later_refl].
    apply split_bytes_spec in Et. destruct Et as [-> _]. unfold ms_drop. destruct (_ <=? _); [|exact I]. exists a. reflexivity.
  Qed.
  Lemma sn_2 : sn (lift try_consume_2_chars).
  Proof.
    apply sn_lift. intros m. unfold try_consume_2_chars. destruct (ms_str m) as [|c [|d r]] eqn:Et; try (rewrite Et; apply later_refl).
    unfold ms_drop. destruct (_ <=? _); [|exact I]. exists [c; d]. reflexivity.
  Qed.

  (** *** Searches *)
  Lemma sat_text {A} b t (f : str -> M A) : sat b t (f t) -> sat b t (bind text f).
  Proof.
    intros H s Hs. specialize (H s Hs). unfold bind, text, op, Parser.text. rewrite Hs. destruct (f t s) as [r c].
    cbn [m_add m_one scanned]. exact H.
  Qed.
  Lemma sat_scan {A} b t n (m : M A) : n <= b -> sat (b - n) t m -> sat b t (bind (scan n) (fun _ => m)).
  Proof.
    intros Hn H s Hs. specialize (H s Hs). unfold bind, scan. destruct (m s) as [r c].
    cbn [m_add m_one scanned]. destruct r as [[a s']|e| |]; try lia. destruct H. split; [assumption|lia].
  Qed.
  Lemma sat_fail {A} b t e : sat b t (@fail A e).
  Proof. intros s Hs. unfold fail. go. Qed.
  Lemma sat_panic {A} b t : sat b t (@panic A).
  Proof. intros s Hs. unfold panic. go. Qed.
  Lemma sat_ret_bind {A B} b t (a : A) (f : A -> M B) : sat b t (f a) -> sat b t (bind (ret a) f).
  Proof.
    intros H s Hs. specialize (H s Hs). unfold bind, ret. destruct (f a s) as [r c]. cbn [m_add m_one m_zero scanned]. exact H.
  Qed.
  (** Consuming [a]. *)
  Lemma sat_take {A} b a r (f : option str -> M A) : sat b r (f (Some a)) -> sat b (a ++ r) (bind (lift (try_consume_n_bytes (str_bytes a))) f).
  Proof.
    intros H s Hs. unfold bind, lift, op, Parser.lift, try_consume_n_bytes. rewrite Hs, split_bytes_app. unfold ms_drop.
    destruct (_ <=? _); [|cbn [m_one scanned]; lia]. set (s1 := set_ms _ s). specialize (H s1 eq_refl). destruct (f (Some a) s1) as [x c].
    cbn [m_add m_one scanned]. destruct x as [[y s']|e| |]; try exact H. destruct H as [[p ->] H2]. split; [|exact H2].
    exists (a ++ p). symmetry. apply app_assoc_reverse.
  Qed.
  (** A search that fails ends the parse; one that finds its character at [a] has cost [2 (length a + 1)]. *)
  Lemma sat_search {A} b t c e (f : nat -> M A) : 2 * length t <= b ->
    (forall a r, t = a ++ c :: r -> sat (b - 2 * S (length a)) t (f (str_bytes a))) ->
    sat b t (bind (scan (2 * reach c t)) (fun _ => bind (ok_or (find_char c t) e) f)).
  Proof.
    intros Hb H. pose proof (reach_le c t). apply sat_scan; [lia|]. destruct (find_char c t) as [i|] eqn:Ef.
    - apply find_char_spec in Ef. destruct Ef as (a & r & -> & <- & Hn). rewrite reach_found by exact Hn.
      specialize (H a r eq_refl). cbn [ok_or]. intros s Hs. specialize (H s Hs). unfold bind, ret. destruct (f _ s) as [x k].
      cbn [m_add m_one m_zero scanned]. exact H.
    - cbn [ok_or]. intros s Hs. unfold bind, fail. go.
  Qed.
  Lemma sat_expect {A} b c r e (f : unit -> M A) : sat b r (f tt) -> sat b (c :: r) (bind (expect_char c e) f).
  Proof.
    intros H s Hs. unfold bind at 1, expect_char, eat_char, bind, lift, op, Parser.lift, try_consume_char, try_consume_char_if. rewrite Hs, N.eqb_refl.
    unfold ms_drop. destruct (_ <=? _); [|cbn [m_one scanned]; lia]. cbn [is_some]. unfold ret. set (s1 := set_ms _ s). specialize (H s1 eq_refl).
    destruct (f tt s1) as [x k]. cbn [m_add m_one m_zero scanned]. destruct x as [[y s']|e0| |]; try exact H. destruct H as [[p ->] H2]. split; [|exact H2].
    exists (c :: p). reflexivity.
  Qed.
  Lemma strip_eq p s r : strip_prefix p s = Some r -> s = p ++ r.
  Proof.
    revert s. induction p as [|x p IH]; intros s H; cbn in H; [injection H as <-; reflexivity|].
    destruct s as [|y s]; [discriminate H|]. destruct (N.eqb_spec x y) as [->|]; [|first [discriminate H|idtac]]; cbn [app]; f_equal; auto.
  Qed.
  Lemma sat_expects {A} b p t e (f : unit -> M A) : (forall r, t = p ++ r -> sat b r (f tt)) -> sat b t (bind (expect_str p e) f).
  Proof.
    intros H s Hs. unfold bind at 1, expect_str, eat_str, bind, lift, op, Parser.lift, try_consume_str. rewrite Hs.
    destruct (strip_prefix p t) as [r|] eqn:Et; [|cbn; lia]. apply strip_eq in Et. specialize (H r Et).
    unfold ms_drop. destruct (_ <=? _); [|cbn [m_one scanned]; lia]. cbn [is_some]. unfold ret. set (s1 := set_ms _ s). specialize (H s1 eq_refl).
    destruct (f tt s1) as [x k]. cbn [m_add m_one m_zero scanned]. destruct x as [[y s']|e0| |]; try exact H. destruct H as [[q ->] H2]. split; [|exact H2].
    exists (p ++ q). rewrite Et. apply app_assoc.
  Qed.
End Rules.

Lemma next_app (a r : str) : a ++ ch "@" :: r = (a ++ [ch "@"]) ++ r.
Proof. rewrite <- app_assoc. reflexivity. Qed.
Lemma str_bytes_next a : str_bytes a + 1 = str_bytes (a ++ [ch "@"]).
Proof. rewrite str_bytes_app. reflexivity. Qed.
Lemma weight_next a r : weight r <= weight ((a ++ [ch "@"]) ++ r) - 2 * S (length a).
Proof.
  pose proof (later_unseen r ((a ++ [ch "@"]) ++ r) ltac:(exists (a ++ [ch "@"]); reflexivity)). unfold weight. rewrite !app_length. cbn [length]. lia.
Qed.
(** ** Functions *)
Create HintDb mg.
#[export] Hint Resolve sn_get sn_text sn_len sn_res sn_run sn_render sn_eatif sn_next sn_eat sn_eats sn_expect sn_expects sn_first sn_special sn_bytes sn_2 sn_modify sn_intern sn_ok_or sn_ret sn_fail sn_panic sn_nofuel : mg.
Ltac updg := apply sn_update; intros ?s; repeat match goal with |- context [if ?b then _ else _] => destruct b end; reflexivity.
Ltac n1 :=
  lazymatch goal with
  | |- sn (bind ?m _) => apply sn_bind; [|intros ?]
  | |- sn (let x := _ in _) => cbv zeta
  | |- sn (if ?b then _ else _) => destruct b
  | |- sn (match ?x with _ => _ end) => destruct x
  | |- sn (update _) => updg
  | |- sn _ => solve [eauto 3 with mg]
  end; cbv beta iota.
Ltac ss := repeat n1.
Lemma g_ext : sn pointer_ext_qualifiers.
Proof. unfold pointer_ext_qualifiers. ss. Qed.
Lemma g_loop fuel c n : sn (number_loop fuel c n).
Proof. revert c n. induction fuel as [|fuel IH]; intros c n; cbn [number_loop]; ss. Qed.
#[export] Hint Resolve g_ext g_loop : mg.
Lemma g_number : sn demangle_number.
Proof. unfold demangle_number. ss. Qed.
#[export] Hint Resolve g_number : mg.
Lemma g_unsigned : sn demangle_unsigned.
Proof. unfold demangle_unsigned. ss. Qed.
Lemma g_signed : sn demangle_signed.
Proof. unfold demangle_signed. ss. Qed.
Lemma g_quals : sn demangle_qualifiers.
Proof. unfold demangle_qualifiers. ss. Qed.
Lemma g_cv : sn demangle_pointer_cv_qualifiers.
Proof. unfold demangle_pointer_cv_qualifiers. ss. Qed.
Lemma g_ref : sn demangle_function_ref_qualifier.
Proof. unfold demangle_function_ref_qualifier. ss. Qed.
Lemma g_cc : sn demangle_calling_convention.
Proof. unfold demangle_calling_convention. ss. Qed.
Lemma g_sc : sn demangle_variable_storage_class.
Proof. unfold demangle_variable_storage_class. ss. Qed.
Lemma g_throw : sn demangle_throw_specification.
Proof. unfold demangle_throw_specification. ss. Qed.
Lemma g_class : sn demangle_function_class.
Proof. unfold demangle_function_class. ss. Qed.
Lemma g_u32 n e : sn (to_u32 n e).
Proof. unfold to_u32. ss. Qed.
Lemma g_i32 n e : sn (to_i32 n e).
Proof. unfold to_i32. ss. Qed.
Lemma g_prim E : sn (demangle_primitive_type E).
Proof. unfold demangle_primitive_type, demangle_primitive_kind. ss. Qed.
Lemma g_char : sn demangle_char_literal.
Proof. unfold demangle_char_literal. ss. Qed.
#[export] Hint Resolve g_unsigned g_signed g_quals g_cv g_ref g_cc g_sc g_throw g_class g_u32 g_i32 g_prim g_char : mg.
Lemma g_wchar : sn demangle_wchar_literal.
Proof. unfold demangle_wchar_literal. ss. Qed.
#[export] Hint Resolve g_wchar : mg.
Lemma g_uid qn : sn (unqualified_identifier qn).
Proof. unfold unqualified_identifier. ss. Qed.
Lemma g_syn_id E id : sn (synthesize_from_id E id).
Proof. unfold synthesize_from_id. ss. Qed.
#[export] Hint Resolve g_uid g_syn_id : mg.
Lemma g_syn E n : sn (synthesize_from_name E n).
Proof. unfold synthesize_from_name. ss. Qed.
#[export] Hint Resolve g_syn : mg.
Lemma g_resolve l : sn (resolve_names l).
Proof. induction l as [|h l IH]; cbn [resolve_names]; ss. Qed.
#[export] Hint Resolve g_resolve : mg.
Lemma g_mem E x : sn (memorize_string E x).
Proof.
  unfold memorize_string. ss.
Qed.
#[export] Hint Resolve g_mem : mg.
Lemma g_memid E h : sn (memorize_identifier E h).
Proof.
  unfold memorize_identifier. ss.
Qed.
#[export] Hint Resolve g_memid : mg.

Section Knot.
  Variable E : env.
  Variable K : knot.
  Hypothesis Hparse : sn (k_parse K).
  Hypothesis Htype : forall m, sn (k_type K m).
  Hypothesis Htinst : forall b, sn (k_tinst K b).
  Hint Resolve Hparse Htype Htinst : mg.
  (** A name read from [t] pays for the search of its end. *)
  Lemma g_string_at m t b : 2 * length t <= b -> (forall a r, t = a ++ ch "@" :: r -> a <> [] -> 2 * S (length a) + weight r <= b) ->
    sat b t (demangle_simple_string E m).
  Proof.
    intros Hb H. unfold demangle_simple_string. apply sat_text. apply sat_search; [exact Hb|]. intros a r ->.
    destruct a as [|x a]; [apply sat_fail|]. specialize (H (x :: a) r eq_refl ltac:(discriminate)).
    destruct (_ =? 0); [apply sat_fail|]. apply sat_take. cbn [ok_or]. apply sat_ret_bind. apply sat_expect. apply sn_sat; [ss|lia].
  Qed.
  Lemma g_string (m : bool) : sn (demangle_simple_string E m).
  Proof.
    intros t. apply g_string_at; [unfold weight; lia|]. intros a r -> _. unfold weight. rewrite app_length. cbn [length].
    pose proof (later_unseen r (a ++ ch "@" :: r) ltac:(exists (a ++ [ch "@"]); rewrite <- app_assoc; reflexivity)). lia.
  Qed.
  (** Behind a ['?'] it need not pay for the test for a local scope. *)
  Lemma g_string_q m t : sat (2 + weight t) (ch "?" :: t) (demangle_simple_string E m).
  Proof.
    apply g_string_at; [unfold weight; cbn [length]; lia|]. intros [|x a] r Ht Ha; [destruct (Ha eq_refl)|].
    assert (Hr : t = a ++ ch "@" :: r) by (cbn [app] in Ht; congruence). clear Ht. subst t. unfold weight. rewrite app_length. cbn [length].
    pose proof (later_unseen r (a ++ ch "@" :: r) ltac:(exists (a ++ [ch "@"]); rewrite <- app_assoc; reflexivity)). lia.
  Qed.
  Hint Resolve g_string : mg.
  Lemma g_sname m : sn (demangle_simple_name E m).
  Proof. unfold demangle_simple_name. ss. Qed.
  Lemma g_sname_q m t : sat (2 + weight t) (ch "?" :: t) (demangle_simple_name E m).
  Proof. unfold demangle_simple_name. apply sat_bind; [apply g_string_q|]. intros a. ss. Qed.
  Lemma g_backref : sn demangle_back_ref_name.
  Proof.
    unfold demangle_back_ref_name. ss.
  Qed.
  Lemma g_anon : sn (demangle_anonymous_namespace_name E).
  Proof.
    unfold demangle_anonymous_namespace_name. intros t0. apply sat_expects. intros t ->. change (L "?A") with [ch "?"; ch "A"]. cbn [app].
    apply sat_text. pose proof (later_unseen t (ch "?" :: ch "A" :: t) ltac:(exists [ch "?"; ch "A"]; reflexivity)).
    apply sat_search; [unfold weight; cbn [length]; lia|]. intros pre r ->. apply sat_take. cbn [ok_or]. apply sat_ret_bind. apply sn_sat; [ss|].
    pose proof (later_unseen (ch "@" :: r) (pre ++ ch "@" :: r) ltac:(exists pre; reflexivity)). unfold weight. cbn [length] in *. rewrite app_length in *. cbn [length] in *. lia.
  Qed.
  Lemma g_local_q t : sat (2 + weight t) (ch "?" :: t) (demangle_locally_scoped_name_piece E K).
  Proof. unfold demangle_locally_scoped_name_piece. apply sat_expect. apply sn_sat; [ss|lia]. Qed.
  Lemma g_local : sn (demangle_locally_scoped_name_piece E K).
  Proof. unfold demangle_locally_scoped_name_piece. ss. Qed.
  Hint Resolve g_sname g_backref g_anon g_local : mg.
  Lemma g_piece : sn (demangle_name_scope_piece E K).
  Proof.
    unfold demangle_name_scope_piece. intros t. apply sat_text.
    destruct (first_is _ t); [apply sn_sat; [ss|lia]|]. destruct (starts_with _ t); [apply sn_sat; [ss|lia]|].
    destruct (starts_with _ t); [apply sn_sat; [ss|lia]|].
    destruct (reach_scope_unseen t) as [H1 H2].
    destruct (match t with x :: _ => (x =? ch "?")%N | [] => false end) eqn:Eq.
    - destruct t as [|x r]; [discriminate Eq|]. apply N.eqb_eq in Eq. subst x. specialize (H2 r eq_refl).
      assert (Hl : reach_scope (ch "?" :: r) + (2 + weight r) <= weight (ch "?" :: r)) by (unfold weight; cbn [length]; lia).
      apply sat_scan; [lia|]. destruct (local_scope_pattern _) as [[]|e| |];
        [eapply sat_weak; [apply g_local_q|lia]|eapply sat_weak; [apply g_sname_q|lia]|apply sat_panic..].
    - assert (H0 : reach_scope t = 0) by (destruct t as [|x r]; [reflexivity|]; cbn [reach_scope]; rewrite Eq; reflexivity).
      rewrite H0. apply sat_scan; [lia|]. rewrite Nat.sub_0_r. apply sn_sat; [ss|lia].
  Qed.
  Hint Resolve g_piece : mg.
  Lemma g_scopes fuel acc : sn (scope_loop E K fuel acc).
  Proof. revert acc. induction fuel as [|fuel IH]; intros acc; cbn [scope_loop]; ss. Qed.
  Hint Resolve g_scopes : mg.
  Lemma g_chain id : sn (demangle_name_scope_chain E K id).
  Proof. unfold demangle_name_scope_chain. ss. Qed.
  Hint Resolve g_chain : mg.
  Lemma g_intrinsic c g : sn (translate_intrinsic c g).
  Proof. unfold translate_intrinsic. ss. Qed.
  Hint Resolve g_intrinsic : mg.
  Lemma g_group g : sn (demangle_function_identifier_code_group E g).
  Proof. unfold demangle_function_identifier_code_group. ss. Qed.
  Hint Resolve g_group : mg.
  Lemma g_code : sn (demangle_function_identifier_code E).
  Proof. unfold demangle_function_identifier_code. ss. Qed.
  Hint Resolve g_code : mg.
  Lemma g_utn m : sn (demangle_unqualified_type_name E K m).
  Proof. unfold demangle_unqualified_type_name. ss. Qed.
  Lemma g_usn b : sn (demangle_unqualified_symbol_name E K b).
  Proof. unfold demangle_unqualified_symbol_name. ss. Qed.
  Hint Resolve g_utn g_usn : mg.
  Lemma g_fqtn : sn (demangle_fully_qualified_type_name E K).
  Proof. unfold demangle_fully_qualified_type_name. ss. Qed.
  Lemma g_fqsn : sn (demangle_fully_qualified_symbol_name E K).
  Proof. unfold demangle_fully_qualified_symbol_name. ss. Qed.
  Hint Resolve g_fqtn g_fqsn : mg.
  Lemma g_custom : sn (demangle_custom_type E K).
  Proof. unfold demangle_custom_type. ss. Qed.
  Lemma g_tag : sn (demangle_class_type E K).
  Proof. unfold demangle_class_type. ss. Qed.
  Lemma g_params fuel acc : sn (params_loop K fuel acc).
  Proof. revert acc. induction fuel as [|fuel IH]; intros acc; cbn [params_loop]; ss. Qed.
  Hint Resolve g_custom g_tag g_params : mg.
  Lemma g_plist : sn (demangle_function_parameter_list E K).
  Proof. unfold demangle_function_parameter_list. ss. Qed.
  Hint Resolve g_plist : mg.
  Lemma g_fn b : sn (demangle_function_type E K b).
  Proof. unfold demangle_function_type. ss. Qed.
  Hint Resolve g_fn : mg.
  Lemma g_ptr : sn (demangle_pointer_type E K).
  Proof. unfold demangle_pointer_type. ss. Qed.
  Lemma g_mptr : sn (demangle_member_pointer_type E K).
  Proof. unfold demangle_member_pointer_type. ss. Qed.
  Lemma g_dims fuel r acc : sn (dims_loop E fuel r acc).
  Proof. revert r acc. induction fuel as [|fuel IH]; intros r acc; cbn [dims_loop]; ss. Qed.
  Hint Resolve g_ptr g_mptr g_dims : mg.
  Lemma g_arr : sn (demangle_array_type E K).
  Proof. unfold demangle_array_type. ss. Qed.
  Hint Resolve g_arr : mg.
  Lemma g_type m : sn (demangle_type E K m).
  Proof. unfold demangle_type. ss. Qed.
  Lemma g_offsets n : sn (read_offsets n).
  Proof. induction n as [|n IH]; cbn [read_offsets]; ss. Qed.
  Lemma g_tsym : sn (template_symbol E K).
  Proof. unfold template_symbol. ss. Qed.
  Hint Resolve g_offsets g_tsym : mg.
  Lemma g_arg : sn (template_arg E K).
  Proof. unfold template_arg. ss. Qed.
  Hint Resolve g_arg : mg.
  Lemma g_args fuel acc : sn (targs_loop E K fuel acc).
  Proof. revert acc. induction fuel as [|fuel IH]; intros acc; cbn [targs_loop]; ss. Qed.
  Hint Resolve g_args : mg.
  Lemma g_alist : sn (demangle_template_parameter_list E K).
  Proof. unfold demangle_template_parameter_list. ss. Qed.
  Hint Resolve g_alist : mg.
  Lemma g_tinst b : sn (demangle_template_instantiation_name E K b).
  Proof. unfold demangle_template_instantiation_name. ss. Qed.

  (** ** Symbols *)
  Lemma g_var sc : sn (demangle_variable_encoding E K sc).
  Proof. unfold demangle_variable_encoding. ss. Qed.
  Lemma g_adjust fc : sn (this_adjust fc).
  Proof. unfold this_adjust. ss. Qed.
  Hint Resolve g_adjust : mg.
  Lemma g_fenc : sn (demangle_function_encoding E K).
  Proof. unfold demangle_function_encoding. ss. Qed.
  Hint Resolve g_var g_fenc : mg.
  Lemma g_enc h : sn (demangle_encoded_symbol E K h).
  Proof. unfold demangle_encoded_symbol. ss. Qed.
  Hint Resolve g_enc : mg.
  Lemma g_decl : sn (demangle_declarator E K).
  Proof. unfold demangle_declarator. ss. Qed.
  Hint Resolve g_decl : mg.
  Lemma g_stab k : sn (demangle_special_table_symbol_node E K k).
  Proof. unfold demangle_special_table_symbol_node. ss. Qed.
  Lemma g_guard b : sn (demangle_local_static_guard E K b).
  Proof. unfold demangle_local_static_guard. ss. Qed.
  Lemma g_untyped n : sn (demangle_untyped_variable E K n).
  Proof. unfold demangle_untyped_variable. ss. Qed.
  Lemma g_base : sn (demangle_rtti_base_class_descriptor_node E K).
  Proof. unfold demangle_rtti_base_class_descriptor_node. ss. Qed.
  Lemma g_stub b : sn (demangle_init_fini_stub E K b).
  Proof. unfold demangle_init_fini_stub. ss. Qed.
  Lemma g_vcall : sn (demangle_vcall_thunk_node E K).
  Proof. unfold demangle_vcall_thunk_node. ss. Qed.
  Lemma g_wide fuel len tr ob : sn (wide_loop E fuel len tr ob).
  Proof. revert len ob. induction fuel as [|fuel IH]; intros len ob; cbn [wide_loop]; ss. Qed.
  Lemma g_narrow fuel acc : sn (narrow_loop fuel acc).
  Proof. revert acc. induction fuel as [|fuel IH]; intros acc; cbn [narrow_loop]; ss. Qed.
  Lemma g_nout l sz num i n tr ob : sn (narrow_out E l sz num i n tr ob).
  Proof. revert i ob. induction n as [|n IH]; intros i ob; cbn [narrow_out]; ss. Qed.
  Hint Resolve g_stab g_guard g_untyped g_base g_stub g_vcall g_wide g_narrow g_nout : mg.
  Lemma g_strlit : sn (demangle_string_literal E).
  Proof.
    unfold demangle_string_literal, take_text. do 3 (n1; [ss|]). n1; [ss|]. n1. n1; [ss|]. intros t. apply sat_text. apply sat_search; [unfold weight; lia|].
    intros pre r ->. rewrite (str_bytes_next pre), (next_app pre r). apply sat_take. apply sn_sat; [ss|]. apply weight_next.
  Qed.
  Lemma g_rtd : sn (rtti_type_descriptor E K).
  Proof. unfold rtti_type_descriptor. ss. Qed.
  Hint Resolve g_strlit g_rtd : mg.
  Lemma g_spec : sn (demangle_special_intrinsic E K).
  Proof. unfold demangle_special_intrinsic. ss. Qed.
  Lemma g_md5 : sn (demangle_md5_name E).
  Proof.
    unfold demangle_md5_name. n1; [ss|]. n1; [ss|]. intros t. apply sat_text. apply sat_search; [unfold weight; lia|].
    intros pre r ->. rewrite (str_bytes_next pre), (next_app pre r). apply sat_take. apply sn_sat; [ss|]. apply weight_next.
  Qed.
  Lemma g_typeinfo : sn (demangle_typeinfo_name E K).
  Proof. unfold demangle_typeinfo_name. ss. Qed.
  Hint Resolve g_spec g_md5 g_typeinfo : mg.
  Lemma g_parse : sn (do_parse E K).
  Proof. unfold do_parse. ss. Qed.
End Knot.
Lemma g_knot E fuel : sn (k_parse (knot_of E fuel)) /\ (forall m, sn (k_type (knot_of E fuel) m)) /\
  (forall b, sn (k_tinst (knot_of E fuel) b)).
Proof.
  induction fuel as [|fuel (H1 & H2 & H3)]; cbn [knot_of k_parse k_type k_tinst].
  - split; [|split; intros]; apply sn_nofuel; lia.
  - split; [|split; intros]; [apply g_parse|apply g_type|apply g_tinst]; assumption.
Qed.
