(** Resource limits as thresholds: for each input there is a number [k] such that a run under
    limit [i] gives one fixed result when [k <= i] and the limit's own error otherwise.  One
    pass over every parser and printer function, instantiated for the node budget and for the
    output limit.  Proof infrastructure. *)
From Verif Require Import Parser Lex.

(** Environments that differ only in their limits. *)
Definition lim (fl : N) (al : N -> bool) (gr : policy) (fn fo : N -> N) (i : N) : env :=
  {| e_flags := fl; e_alnum := al; e_grow := gr; e_nodes := fn i; e_out := fo i |}.

Definition is_limit (e : error) : bool := match e with MaliciousInput | Io OutOfMemory => true | _ => false end.

Section Thr.
  Variable e0 : error.
  Hypothesis He0 : is_limit e0 = true.
  (** The part of the state the limit is about, and whether the threshold is exactly its
      final value. *)
  Variable g : nat -> N.
  Variable exact : Prop.
  Definition sz (s : st) : N := g (length (s_store s)).

  Definition thr {A} (f : N -> M A) : Prop := forall s, exists k r,
    r <> Err e0 /\ (sz s <= k)%N /\ (forall a s', r = Ok (a, s') -> (sz s' <= k)%N /\ (exact -> k = sz s')) /\
    forall i, (sz s <= i)%N -> f i s = if (k <=? i)%N then r else Err e0.
  Definition quiet {A} (m : M A) : Prop := forall s, m s <> Err e0 /\ forall a s', m s = Ok (a, s') -> sz s' = sz s.
  Definition thrw (w : N -> W) : Prop := forall b, exists k b' r,
    r <> Err e0 /\ (exact -> k = 0%N) /\
    forall i, if (k <=? i)%N then w i b = (b', r) else snd (w i b) = Err e0.

  Lemma thr_quiet {A} (m : M A) : quiet m -> thr (fun _ => m).
  Proof.
    intros H s. destruct (H s) as [H1 H2]. exists (sz s), (m s). split; [exact H1|]. split; [lia|]. split.
    - intros a s' Hr. rewrite (H2 _ _ Hr). split; [lia|auto].
    - intros i Hi. apply N.leb_le in Hi. rewrite Hi. reflexivity.
  Qed.
  Lemma thr_ext {A} (f f' : N -> M A) : (forall i s, f i s = f' i s) -> thr f' -> thr f.
  Proof.
    intros He H s. destruct (H s) as (k & r & H1 & H2 & H3 & H4). exists k, r. split; [assumption|]. split; [assumption|]. split; [assumption|].
    intros i Hi. rewrite He. auto.
  Qed.
  Lemma thr_bind {A B} (m : N -> M A) (f : N -> A -> M B) :
    thr m -> (forall a, thr (fun i => f i a)) -> thr (fun i => bind (m i) (f i)).
  Proof.
    intros Hm Hf s. destruct (Hm s) as (k & r & H1 & H2 & H3 & H4).
    destruct r as [[a s1]|e| |].
    - destruct (H3 _ _ eq_refl) as [H5 H6]. destruct (Hf a s1) as (k' & r' & F1 & F2 & F3 & F4).
      exists (N.max k k'), r'. split; [exact F1|]. split; [lia|]. split.
      + intros b s2 Hr. destruct (F3 _ _ Hr) as [F5 F6]. split; [lia|]. intros Hx. specialize (H6 Hx). specialize (F6 Hx). lia.
      + intros i Hi. unfold bind. rewrite H4 by assumption. destruct (N.leb_spec k i) as [Hk|Hk].
        * rewrite F4 by lia. destruct (N.leb_spec k' i), (N.leb_spec (N.max k k') i); try reflexivity; lia.
        * destruct (N.leb_spec (N.max k k') i); [lia|reflexivity].
    - exists k, (Err e). split; [congruence|]. split; [assumption|]. split; [discriminate|].
      intros i Hi. unfold bind. rewrite H4 by assumption. destruct (k <=? i)%N; reflexivity.
    - exists k, Panic. split; [discriminate|]. split; [assumption|]. split; [discriminate|].
      intros i Hi. unfold bind. rewrite H4 by assumption. destruct (k <=? i)%N; reflexivity.
    - exists k, Fuel. split; [discriminate|]. split; [assumption|]. split; [discriminate|].
      intros i Hi. unfold bind. rewrite H4 by assumption. destruct (k <=? i)%N; reflexivity.
  Qed.
  Lemma thr_if {A} (b : bool) (m k : N -> M A) :
    (b = true -> thr m) -> (b = false -> thr k) -> thr (fun i => if b then m i else k i).
  Proof. destruct b; auto. Qed.

  (** ** Quiet steps *)
  Lemma quiet_ret {A} (a : A) : quiet (ret a).
  Proof. intros s. split; [discriminate|]. intros x s' H. injection H as <- <-. reflexivity. Qed.
  Lemma quiet_fail {A} e : is_limit e = false -> quiet (@fail A e).
  Proof. intros H s. split; [|discriminate]. unfold fail. intros H'. injection H' as ->. congruence. Qed.
  Lemma quiet_panic {A} : quiet (@panic A).
  Proof. intros s. split; discriminate. Qed.
  Lemma quiet_nofuel {A} : quiet (@nofuel A).
  Proof. intros s. split; discriminate. Qed.
  Lemma quiet_bind {A B} (m : M A) (f : A -> M B) : quiet m -> (forall a, quiet (f a)) -> quiet (bind m f).
  Proof.
    intros Hm Hf s. unfold bind. destruct (Hm s) as [H1 H2]. destruct (m s) as [[a s1]|e| |].
    - destruct (Hf a s1) as [F1 F2]. split; [exact F1|]. intros b s2 Hr. rewrite (F2 _ _ Hr). apply (H2 _ _ eq_refl).
    - split; [congruence|discriminate].
    - split; discriminate.
    - split; discriminate.
  Qed.
  Lemma quiet_ok_or {A} (o : option A) e : is_limit e = false -> quiet (ok_or o e).
  Proof. intros H. destruct o; [apply quiet_ret|apply quiet_fail; assumption]. Qed.
  Lemma quiet_get : quiet get.
  Proof. intros s. split; [discriminate|]. intros x s' H. injection H as <- <-. reflexivity. Qed.
  Lemma quiet_text : quiet text.
  Proof. intros s. split; [discriminate|]. intros x s' H. injection H as <- <-. reflexivity. Qed.
  Lemma quiet_len : quiet len_chars.
  Proof. intros s. split; [discriminate|]. intros x s' H. injection H as <- <-. reflexivity. Qed.
  (** Consuming methods: they never return an error. *)
  Lemma quiet_lift {A} (f : mstring -> mres A) : (forall m e, f m <> Err e) -> quiet (lift f).
  Proof.
    intros H s. unfold lift. specialize (H (s_ms s)). destruct (f (s_ms s)) as [[a m]|e| |]; try (split; discriminate).
    - split; [discriminate|]. intros x s' Hr. injection Hr as <- <-. reflexivity.
    - exfalso. exact (H e eq_refl).
  Qed.
  Lemma drop_noerr m r n e : ms_drop m r n <> Err e.
  Proof. unfold ms_drop. destruct (_ <=? _); discriminate. Qed.
  Ltac noerr := intros; match goal with |- context [ms_drop ?m ?r ?n] => let H := fresh in pose proof (drop_noerr m r n) as H; destruct (ms_drop m r n); try discriminate; exfalso; eapply H; reflexivity end.
  Lemma quiet_consume : quiet (lift try_consume).
  Proof. apply quiet_lift. intros m e. unfold try_consume. destruct (ms_str m); [discriminate|noerr]. Qed.
  Lemma quiet_consume_if f : quiet (eat_if f).
  Proof. apply quiet_lift. intros m e. unfold try_consume_char_if. destruct (ms_str m); [discriminate|]. destruct (f n); [noerr|discriminate]. Qed.
  Lemma quiet_consume_bytes n : quiet (lift (try_consume_n_bytes n)).
  Proof. apply quiet_lift. intros m e. unfold try_consume_n_bytes. destruct (split_bytes n (ms_str m)) as [[a b]|]; [noerr|discriminate]. Qed.
  Lemma quiet_consume_2 : quiet (lift try_consume_2_chars).
  Proof. apply quiet_lift. intros m e. unfold try_consume_2_chars. destruct (ms_str m) as [|? [|? ?]]; try discriminate. noerr. Qed.
  Lemma quiet_consume_str p : quiet (lift (try_consume_str p)).
  Proof. apply quiet_lift. intros m e. unfold try_consume_str. destruct (strip_prefix p (ms_str m)); [noerr|discriminate]. Qed.
  Lemma quiet_next e : is_limit e = false -> quiet (next_char e).
  Proof. intros H. apply quiet_bind; [apply quiet_consume|]. intros. apply quiet_ok_or, H. Qed.
  Lemma quiet_eat_char c : quiet (eat_char c).
  Proof. apply quiet_bind; [apply (quiet_consume_if (fun x => (x =? c)%N))|]. intros. apply quiet_ret. Qed.
  Lemma quiet_eat_str p : quiet (eat_str p).
  Proof. apply quiet_bind; [apply quiet_consume_str|]. intros. apply quiet_ret. Qed.
  Lemma quiet_expect_char c e : is_limit e = false -> quiet (expect_char c e).
  Proof. intros H. apply quiet_bind; [apply quiet_eat_char|]. intros []; [apply quiet_ret|apply quiet_fail, H]. Qed.
  Lemma quiet_expect_str c e : is_limit e = false -> quiet (expect_str c e).
  Proof. intros H. apply quiet_bind; [apply quiet_eat_str|]. intros []; [apply quiet_ret|apply quiet_fail, H]. Qed.
  Lemma quiet_eat_first l : quiet (eat_first l).
  Proof.
    induction l as [|p l IH]; cbn [eat_first]; [apply quiet_ret|]. apply quiet_bind; [apply quiet_eat_str|].
    intros []; [apply quiet_ret|exact IH].
  Qed.
  Lemma quiet_res k h : quiet (res_ k h).
  Proof.
    intros s. unfold res_. destruct (resolve _ _ _); (split; [discriminate|]); [|discriminate].
    intros x s' H. injection H as <- <-. reflexivity.
  Qed.
  Lemma upd_len sg h n : length (upd sg h n) = length sg.
  Proof. revert h. induction sg as [|m sg IH]; intros [|h]; cbn; auto. Qed.
  Lemma quiet_modify k h f : quiet (modify k h f).
  Proof.
    intros s. unfold modify. destruct (resolve _ _ _); (split; [discriminate|]); [|discriminate].
    intros x s' H. injection H as <- <-. unfold sz. cbn. rewrite upd_len. reflexivity.
  Qed.
  (** An update of the state that does not touch the store. *)
  Lemma quiet_put (f : st -> st) : (forall s, s_store (f s) = s_store s) -> quiet (fun s => Ok (tt, f s)).
  Proof. intros H s. split; [discriminate|]. intros x s' Hr. injection Hr as <- <-. unfold sz. rewrite H. reflexivity. Qed.

  Hint Resolve quiet_ret quiet_panic quiet_nofuel quiet_get quiet_text quiet_len quiet_consume quiet_consume_if
    quiet_consume_bytes quiet_consume_2 quiet_consume_str quiet_eat_char quiet_eat_str quiet_eat_first quiet_res quiet_modify : quiet.
  Hint Extern 1 (quiet (fail _)) => apply quiet_fail; reflexivity : quiet.
  Hint Extern 1 (quiet (ok_or _ _)) => apply quiet_ok_or; reflexivity : quiet.
  Hint Extern 1 (quiet (next_char _)) => apply quiet_next; reflexivity : quiet.
  Hint Extern 1 (quiet (expect_char _ _)) => apply quiet_expect_char; reflexivity : quiet.
  Hint Extern 1 (quiet (expect_str _ _)) => apply quiet_expect_str; reflexivity : quiet.
  Ltac qt1 :=
    match goal with
    | |- quiet (bind _ _) => apply quiet_bind; [|intros ?]
    | |- quiet (if ?b then _ else _) => destruct b
    | |- quiet (match ?x with _ => _ end) => destruct x
    | |- quiet (let _ := _ in _) => cbv zeta
    | |- quiet (fun s => Ok (tt, _)) => apply quiet_put; intros s; cbv beta; repeat match goal with |- context [if ?b then _ else _] => destruct b end; reflexivity
    | |- quiet _ => solve [auto with quiet]
    end.
  Ltac qt := repeat qt1.

  Lemma quiet_ext_quals : quiet pointer_ext_qualifiers.
  Proof. unfold pointer_ext_qualifiers. qt. Qed.
  Lemma quiet_number_loop fuel : forall c n, quiet (number_loop fuel c n).
  Proof. induction fuel; intros; cbn [number_loop]; qt. Qed.
  Hint Resolve quiet_ext_quals quiet_number_loop : quiet.
  Lemma quiet_number : quiet demangle_number.
  Proof. unfold demangle_number. qt. Qed.
  Hint Resolve quiet_number : quiet.
  Lemma quiet_unsigned : quiet demangle_unsigned.
  Proof. unfold demangle_unsigned. qt. Qed.
  Lemma quiet_signed : quiet demangle_signed.
  Proof. unfold demangle_signed. qt. Qed.
  Lemma quiet_to_u32 n e : is_limit e = false -> quiet (to_u32 n e).
  Proof. intros. unfold to_u32. destruct (_ <? _)%N; [apply quiet_ret|apply quiet_fail; assumption]. Qed.
  Lemma quiet_to_i32 n e : is_limit e = false -> quiet (to_i32 n e).
  Proof. intros. unfold to_i32. destruct (_ && _); [apply quiet_ret|apply quiet_fail; assumption]. Qed.
  Hint Extern 1 (quiet (to_u32 _ _)) => apply quiet_to_u32; reflexivity : quiet.
  Hint Extern 1 (quiet (to_i32 _ _)) => apply quiet_to_i32; reflexivity : quiet.
  Lemma quiet_qualifiers : quiet demangle_qualifiers.
  Proof. unfold demangle_qualifiers. qt. Qed.
  Lemma quiet_ptr_cv : quiet demangle_pointer_cv_qualifiers.
  Proof. unfold demangle_pointer_cv_qualifiers. qt. Qed.
  Lemma quiet_ref : quiet demangle_function_ref_qualifier.
  Proof. unfold demangle_function_ref_qualifier. qt. Qed.
  Lemma quiet_cc : quiet demangle_calling_convention.
  Proof. unfold demangle_calling_convention. qt. Qed.
  Lemma quiet_storage : quiet demangle_variable_storage_class.
  Proof. unfold demangle_variable_storage_class. qt. Qed.
  Lemma quiet_throw : quiet demangle_throw_specification.
  Proof. unfold demangle_throw_specification. qt. Qed.
  Lemma quiet_fclass : quiet demangle_function_class.
  Proof. unfold demangle_function_class. qt. Qed.
  Lemma quiet_prim : quiet demangle_primitive_kind.
  Proof. unfold demangle_primitive_kind. qt. Qed.
  Lemma quiet_char : quiet demangle_char_literal.
  Proof. unfold demangle_char_literal. qt. Qed.
  Hint Resolve quiet_unsigned quiet_signed quiet_qualifiers quiet_ptr_cv quiet_ref quiet_cc quiet_storage quiet_throw
    quiet_fclass quiet_prim quiet_char : quiet.
  Lemma quiet_wchar : quiet demangle_wchar_literal.
  Proof. unfold demangle_wchar_literal. qt. Qed.
  Lemma quiet_special t : quiet (consume_special t).
  Proof. induction t as [|[p k] t IH]; cbn [consume_special]; qt. Qed.
  Lemma quiet_translate c gr : quiet (translate_intrinsic c gr).
  Proof. unfold translate_intrinsic. qt. Qed.
  Lemma quiet_unq_id qn : quiet (unqualified_identifier qn).
  Proof. unfold unqualified_identifier. qt. Qed.
  Lemma quiet_resolve_names l : quiet (resolve_names l).
  Proof. induction l; cbn [resolve_names]; qt. Qed.
  Lemma quiet_back_ref : quiet demangle_back_ref_name.
  Proof. unfold demangle_back_ref_name. qt. Qed.
  Lemma quiet_take b : quiet (take_text b).
  Proof. unfold take_text. qt. Qed.
  Lemma quiet_narrow fuel : forall acc, quiet (narrow_loop fuel acc).
  Proof. induction fuel; intros; cbn [narrow_loop]; qt. Qed.
  Lemma quiet_offsets n : quiet (read_offsets n).
  Proof. induction n; cbn [read_offsets]; qt. Qed.
  Lemma quiet_adjust fc : quiet (this_adjust fc).
  Proof. unfold this_adjust. qt. Qed.
  Hint Resolve quiet_wchar quiet_special quiet_translate quiet_unq_id quiet_resolve_names quiet_back_ref quiet_take
    quiet_narrow quiet_offsets quiet_adjust : quiet.

  (** ** Writers *)
  Lemma thrw_const (w : W) : (forall b, snd (w b) <> Err e0) -> thrw (fun _ => w).
  Proof.
    intros H b. exists 0%N, (fst (w b)), (snd (w b)). split; [apply H|]. split; [auto|].
    intros i. destruct (N.leb_spec 0 i); [|lia]. apply surjective_pairing.
  Qed.
  Lemma thrw_ret : thrw (fun _ => w_ret).
  Proof. apply thrw_const. discriminate. Qed.
  Lemma thrw_panic : thrw (fun _ => w_panic).
  Proof. apply thrw_const. discriminate. Qed.
  Lemma thrw_fuel : thrw (fun _ => w_fuel).
  Proof. apply thrw_const. discriminate. Qed.
  Lemma thrw_seq m k : thrw m -> thrw k -> thrw (fun i => m i >> k i).
  Proof.
    intros Hm Hk b. destruct (Hm b) as (x & b1 & r & H1 & H2 & H3). destruct r as [[]|e| |].
    - destruct (Hk b1) as (y & b2 & r & F1 & F2 & F3). exists (N.max x y), b2, r. split; [exact F1|].
      split; [intros Hx; rewrite (H2 Hx), (F2 Hx); reflexivity|]. intros i. specialize (H3 i). specialize (F3 i). unfold w_seq.
      destruct (N.leb_spec x i).
      + rewrite H3. destruct (N.leb_spec y i), (N.leb_spec (N.max x y) i); try lia; assumption.
      + destruct (N.leb_spec (N.max x y) i); [lia|]. destruct (m i b) as [c r']. cbn [snd] in H3. subst r'. reflexivity.
    - exists x, b1, (Err e). split; [assumption|]. split; [assumption|]. intros i. specialize (H3 i). unfold w_seq.
      destruct (x <=? i)%N; [rewrite H3; reflexivity|]. destruct (m i b) as [c r']. cbn [snd] in H3. subst r'. reflexivity.
    - exists x, b1, Panic. split; [assumption|]. split; [assumption|]. intros i. specialize (H3 i). unfold w_seq.
      destruct (x <=? i)%N; [rewrite H3; reflexivity|]. destruct (m i b) as [c r']. cbn [snd] in H3. subst r'. reflexivity.
    - exists x, b1, Fuel. split; [assumption|]. split; [assumption|]. intros i. specialize (H3 i). unfold w_seq.
      destruct (x <=? i)%N; [rewrite H3; reflexivity|]. destruct (m i b) as [c r']. cbn [snd] in H3. subst r'. reflexivity.
  Qed.
  Lemma thrw_if c m : thrw m -> thrw (fun i => w_if c (m i)).
  Proof. intros H. destruct c; [apply H|apply thrw_ret]. Qed.
  Lemma thrw_opt {A} (o : option A) (f : N -> A -> W) : (forall a, thrw (fun i => f i a)) -> thrw (fun i => w_opt o (f i)).
  Proof. intros H. destruct o; [apply H|apply thrw_ret]. Qed.
  (** A writer that looks at the buffer. *)
  Lemma thrw_look (f : N -> buf -> W) : (forall b, thrw (fun i => f i b)) -> thrw (fun i b => f i b b).
  Proof. intros H b. apply (H b b). Qed.
  Lemma thr_run_w w b : thrw w -> thr (fun i => run_w (w i) b).
  Proof.
    intros H s. destruct (H b) as (k & b' & r & H1 & H2 & H3).
    exists (N.max k (sz s)), (match r with Ok tt => Ok (b', s) | Err e => Err e | Panic => Panic | Fuel => Fuel end).
    split; [destruct r as [[]| | |]; congruence|]. split; [lia|]. split.
    - destruct r as [[]|e| |]; try discriminate. intros a s' Hr. injection Hr as <- <-. split; [lia|]. intros Hx. rewrite (H2 Hx). lia.
    - intros i Hi. specialize (H3 i). unfold run_w. destruct (N.leb_spec k i), (N.leb_spec (N.max k (sz s)) i); try lia.
      + rewrite H3. destruct r as [[]|e| |]; reflexivity.
      + destruct (w i b) as [c r']. cbn [snd] in H3. subst r'. reflexivity.
  Qed.
  Lemma thr_render (w : N -> store -> W) : (forall sg, thrw (fun i => w i sg)) -> thr (fun i => render (w i)).
  Proof.
    intros Hw. unfold render. apply thr_bind; [apply thr_quiet, quiet_get|]. intros s.
    apply thr_bind; [apply thr_run_w, Hw|]. intros b. apply thr_quiet. auto with quiet.
  Qed.

  (** ** The printer *)
  Variables (fl : N) (al : N -> bool) (gr : policy) (fn fo : N -> N).
  Notation F := (lim fl al gr fn fo).
  Hypothesis Hstr : forall t, thrw (fun i => w_str (F i) t).
  Hypothesis Hintern : forall n, thr (fun i => intern (F i) n).

  Ltac flags := unfold no_calling_convention, no_tag_specifier, no_access_specifier, no_member_type, no_return_type,
        no_variable_type, no_this_type, no_leading_underscores, no_ms_keywords, name_only; cbn [e_flags lim].
  Lemma thrw_space : thrw (fun i => space_if_necessary (F i)).
  Proof.
    intros b. unfold space_if_necessary. destruct (last_char b) as [c|]; [|apply thrw_ret].
    unfold is_alphanumeric. cbn [e_alnum lim]. destruct (_ || _); [apply Hstr|apply thrw_ret].
  Qed.
  Hint Resolve thrw_ret thrw_panic thrw_fuel thrw_space : thrw.
  Ltac tw1 :=
    match goal with
    | |- thrw (fun i => w_str _ _) => apply Hstr
    | |- thrw (fun i => put _ _) => apply Hstr
    | |- thrw (fun i => w_seq _ _) => apply thrw_seq
    | |- thrw (fun i => w_if ?c _) => apply thrw_if
    | |- thrw (fun i => w_opt ?o _) => apply thrw_opt; intros ?
    | |- thrw (fun i => if ?b then _ else _) => destruct b
    | |- thrw (fun i => match ?x with _ => _ end) => destruct x
    | |- thrw _ => solve [auto with thrw]
    end.
  Ltac tw := flags; repeat tw1.

  Lemma thrw_restrict : thrw (fun i => single_restrict (F i)).
  Proof. unfold single_restrict. tw. Qed.
  Lemma thrw_const_ : thrw (fun i => single_const (F i)).
  Proof. apply Hstr. Qed.
  Lemma thrw_volatile : thrw (fun i => single_volatile (F i)).
  Proof. apply Hstr. Qed.
  Lemma thrw_present p m sb (k : N -> bool -> W) : thrw m -> (forall b, thrw (fun i => k i b)) ->
    thrw (fun i => if_present (F i) p (m i) sb (k i)).
  Proof. intros Hm Hk. unfold if_present. destruct p; [|apply Hk]. tw; auto. Qed.
  Lemma thrw_quals q sb sa : thrw (fun i => out_quals (F i) q sb sa).
  Proof.
    unfold out_quals. destruct (q =? Q_None)%N; [apply thrw_ret|].
    apply (thrw_look (fun i b0 => (if_present (F i) (q_is_const q) (single_const (F i)) sb (fun sb0 =>
     if_present (F i) (q_is_volatile q) (single_volatile (F i)) sb0 (fun sb1 =>
     if_present (F i) (q_is_restrict q) (single_restrict (F i)) sb1 (fun _ => w_ret))) >>
     (fun b1 => w_if (sa && (length (b_bytes b0) <? length (b_bytes b1))) (w_str (F i) (L " ")) b1)))).
    intros b0. apply thrw_seq.
    - apply thrw_present; [apply thrw_const_|]. intros sb0. apply thrw_present; [apply thrw_volatile|]. intros sb1.
      apply thrw_present; [apply thrw_restrict|]. intros _. apply thrw_ret.
    - apply (thrw_look (fun i b1 => w_if (sa && (length (b_bytes b0) <? length (b_bytes b1))) (w_str (F i) (L " ")))).
      intros b1. tw.
  Qed.
  Lemma thrw_cc c : thrw (fun i => out_cc (F i) c).
  Proof. unfold out_cc. tw. Qed.
  Hint Resolve thrw_quals thrw_cc : thrw.

  Section Node.
    Variable sg : store.
    Variable rec : N -> omode -> kind -> handle -> W.
    Hypothesis Hrec : forall m k h, thrw (fun i => rec i m k h).
    Hint Resolve Hrec : thrw.
    Lemma thrw_fsig_pre f p : thrw (fun i => fsig_pre (F i) (rec i) f p).
    Proof. unfold fsig_pre. tw. Qed.
    Lemma thrw_fsig_post f p : thrw (fun i => fsig_post (F i) (rec i) f p).
    Proof.
      unfold fsig_post. tw.
      intros b. destruct (last_char b) as [c|]; [|apply thrw_ret]. revert b. change (thrw (fun i => w_if (negb (c =? ch "(")%N) (put (F i) (L ", ")))). tw.
    Qed.
    Hint Resolve thrw_fsig_pre thrw_fsig_post : thrw.
    Lemma thrw_thunk_pre f p : thrw (fun i => thunk_pre (F i) (rec i) f p).
    Proof. unfold thunk_pre. tw. Qed.
    Lemma thrw_thunk_post f ta p : thrw (fun i => thunk_post (F i) (rec i) f ta p).
    Proof. unfold thunk_post. tw. Qed.
    Hint Resolve thrw_thunk_pre thrw_thunk_post : thrw.
    Lemma thrw_sig_pre n p : thrw (fun i => sig_pre (F i) (rec i) n p).
    Proof. unfold sig_pre. tw. Qed.
    Lemma thrw_sig_post n p : thrw (fun i => sig_post (F i) (rec i) n p).
    Proof. unfold sig_post. tw. Qed.
    Hint Resolve thrw_sig_pre thrw_sig_post : thrw.
    Lemma thrw_ptr_pre q a cls p : thrw (fun i => ptr_pre (F i) sg (rec i) q a cls p).
    Proof. unfold ptr_pre. tw. Qed.
    Lemma thrw_ptr_post p : thrw (fun i => ptr_post (F i) sg (rec i) p).
    Proof. unfold ptr_post. tw. Qed.
    Lemma thrw_int v neg : thrw (fun i => int_out (F i) v neg).
    Proof. unfold int_out. tw. Qed.
    Hint Resolve thrw_ptr_pre thrw_ptr_post thrw_int : thrw.
    Lemma thrw_one_dim h : thrw (fun i => one_dim (F i) sg h).
    Proof. unfold one_dim. tw. Qed.
    Hint Resolve thrw_one_dim : thrw.
    Lemma thrw_rest_dims l : thrw (fun i => rest_dims (F i) sg l).
    Proof. induction l; cbn [rest_dims]; tw. Qed.
    Hint Resolve thrw_rest_dims : thrw.
    Lemma thrw_dims d : thrw (fun i => out_dims (F i) sg d).
    Proof. unfold out_dims. tw. Qed.
    Lemma thrw_tp tp : thrw (fun i => out_tp (F i) (rec i) tp).
    Proof. unfold out_tp. tw. Qed.
    Lemma thrw_rest_nodes sep l : thrw (fun i => rest_nodes (F i) (rec i) sep l).
    Proof. induction l; cbn [rest_nodes]; tw. Qed.
    Hint Resolve thrw_dims thrw_tp thrw_rest_nodes : thrw.
    Lemma thrw_nodes sep l : thrw (fun i => out_nodes (F i) (rec i) sep l).
    Proof. unfold out_nodes. tw. Qed.
    Hint Resolve thrw_nodes : thrw.
    Lemma thrw_pre n : thrw (fun i => out_pre (F i) sg (rec i) n).
    Proof. unfold out_pre. tw. Qed.
    Lemma thrw_post n : thrw (fun i => out_post (F i) sg (rec i) n).
    Proof. unfold out_post. tw. Qed.
    Hint Resolve thrw_pre thrw_post : thrw.
    Lemma thrw_var name sc ty : thrw (fun i => var_out (F i) (rec i) name sc ty).
    Proof. unfold var_out. destruct sc as [[]|]; cbv zeta; tw. Qed.
    Lemma thrw_fold zs : thrw (fun i => fold_right (fun z k => put (F i) (L ", " ++ dec_Z z) >> k) (put (F i) (L "}")) zs).
    Proof. induction zs; cbn [fold_right]; tw. Qed.
    Hint Resolve thrw_fold : thrw.
    Lemma thrw_tpr sym offs a : thrw (fun i => tpr_out (F i) (rec i) sym offs a).
    Proof. unfold tpr_out. tw. Qed.
    Lemma thrw_strlit s t k : thrw (fun i => strlit_out (F i) s t k).
    Proof. unfold strlit_out. tw. Qed.
    Hint Resolve thrw_var thrw_tpr thrw_strlit : thrw.
    Lemma thrw_full n : thrw (fun i => out_full (F i) sg (rec i) n).
    Proof. unfold out_full. tw. Qed.
    Hint Resolve thrw_full : thrw.
    Lemma thrw_node m n : thrw (fun i => out_node (F i) sg (rec i) m n).
    Proof. unfold out_node. tw. Qed.
  End Node.
  Lemma thrw_out sg fuel : forall m k h, thrw (fun i => out fuel (F i) sg m k h).
  Proof.
    induction fuel as [|fuel IH]; intros m k h; cbn [out]; [apply thrw_fuel|].
    destruct (resolve sg k h) as [n|]; [|apply thrw_panic]. apply (thrw_node sg (fun i => out fuel (F i) sg)). exact IH.
  Qed.
  Lemma thrw_output sg k h : thrw (fun i => output (F i) sg k h).
  Proof. unfold output. apply thrw_out. Qed.

  (** ** The parser *)
  Section Parser.
    Variable K : N -> knot.
    Hypothesis HKp : thr (fun i => k_parse (K i)).
    Hypothesis HKt : forall m, thr (fun i => k_type (K i) m).
    Hypothesis HKi : forall b, thr (fun i => k_tinst (K i) b).
    Hint Resolve HKp HKt HKi Hintern : thr.
    Ltac th1 :=
      match goal with
      | |- thr (fun i => bind _ _) => apply thr_bind; [|intros ?]
      | |- thr (fun i => if ?b then _ else _) => apply thr_if; intros ?
      | |- thr (fun i => match ?x with _ => _ end) => destruct x
      | |- thr (fun i => let _ := _ in _) => cbv zeta
      | |- thr _ => solve [auto with thr]
      | |- thr (fun _ => ?m) => solve [apply thr_quiet; qt]
      end.
    Ltac th := repeat th1.

    Lemma thr_memorize_string nm : thr (fun i => memorize_string (F i) nm).
    Proof. unfold memorize_string. th. Qed.
    Hint Resolve thr_memorize_string : thr.
    Lemma thr_memorize_identifier id : thr (fun i => memorize_identifier (F i) id).
    Proof. unfold memorize_identifier. apply thr_bind; [|intros; th]. apply thr_render. intros. apply thrw_output. Qed.
    Hint Resolve thr_memorize_identifier : thr.
    Lemma thr_simple_string m : thr (fun i => demangle_simple_string (F i) m).
    Proof. unfold demangle_simple_string. th. Qed.
    Hint Resolve thr_simple_string : thr.
    Lemma thr_simple_name m : thr (fun i => demangle_simple_name (F i) m).
    Proof. unfold demangle_simple_name. th. Qed.
    Lemma thr_anonymous : thr (fun i => demangle_anonymous_namespace_name (F i)).
    Proof. unfold demangle_anonymous_namespace_name. th. Qed.
    Lemma thr_locally : thr (fun i => demangle_locally_scoped_name_piece (F i) (K i)).
    Proof.
      unfold demangle_locally_scoped_name_piece. th.
      apply thr_render.
      intros sg. repeat apply thrw_seq; [apply Hstr|apply thrw_output|apply Hstr].
    Qed.
    Hint Resolve thr_simple_name thr_anonymous thr_locally : thr.
    Lemma thr_piece : thr (fun i => demangle_name_scope_piece (F i) (K i)).
    Proof. unfold demangle_name_scope_piece. th. Qed.
    Hint Resolve thr_piece : thr.
    Lemma thr_scope_loop fuel : forall acc, thr (fun i => scope_loop (F i) (K i) fuel acc).
    Proof. induction fuel; intros; cbn [scope_loop]; th. Qed.
    Hint Resolve thr_scope_loop : thr.
    Lemma thr_chain id : thr (fun i => demangle_name_scope_chain (F i) (K i) id).
    Proof. unfold demangle_name_scope_chain. th. Qed.
    Hint Resolve thr_chain : thr.
    Lemma thr_code_group gr' : thr (fun i => demangle_function_identifier_code_group (F i) gr').
    Proof. unfold demangle_function_identifier_code_group. apply thr_bind; [th|]. intros c. cbv zeta. destruct gr'; th. Qed.
    Hint Resolve thr_code_group : thr.
    Lemma thr_code : thr (fun i => demangle_function_identifier_code (F i)).
    Proof. unfold demangle_function_identifier_code. th. Qed.
    Hint Resolve thr_code : thr.
    Lemma thr_unq_type m : thr (fun i => demangle_unqualified_type_name (F i) (K i) m).
    Proof. unfold demangle_unqualified_type_name. th. Qed.
    Lemma thr_unq_sym b : thr (fun i => demangle_unqualified_symbol_name (F i) (K i) b).
    Proof. unfold demangle_unqualified_symbol_name. th. Qed.
    Hint Resolve thr_unq_type thr_unq_sym : thr.
    Lemma thr_fq_type : thr (fun i => demangle_fully_qualified_type_name (F i) (K i)).
    Proof. unfold demangle_fully_qualified_type_name. th. Qed.
    Lemma thr_fq_sym : thr (fun i => demangle_fully_qualified_symbol_name (F i) (K i)).
    Proof. unfold demangle_fully_qualified_symbol_name. th. Qed.
    Hint Resolve thr_fq_type thr_fq_sym : thr.
    Lemma thr_custom : thr (fun i => demangle_custom_type (F i) (K i)).
    Proof. unfold demangle_custom_type. th. Qed.
    Lemma thr_class : thr (fun i => demangle_class_type (F i) (K i)).
    Proof. unfold demangle_class_type. th. Qed.
    Lemma thr_params_loop fuel : forall acc, thr (fun i => params_loop (K i) fuel acc).
    Proof. induction fuel; intros; cbn [params_loop]; th. Qed.
    Hint Resolve thr_custom thr_class thr_params_loop : thr.
    Lemma thr_params : thr (fun i => demangle_function_parameter_list (F i) (K i)).
    Proof. unfold demangle_function_parameter_list. th. Qed.
    Hint Resolve thr_params : thr.
    Lemma thr_function_type b : thr (fun i => demangle_function_type (F i) (K i) b).
    Proof. unfold demangle_function_type. th. Qed.
    Hint Resolve thr_function_type : thr.
    Lemma thr_pointer : thr (fun i => demangle_pointer_type (F i) (K i)).
    Proof. unfold demangle_pointer_type. th. Qed.
    Lemma thr_member_pointer : thr (fun i => demangle_member_pointer_type (F i) (K i)).
    Proof. unfold demangle_member_pointer_type. th. Qed.
    Lemma thr_dims fuel : forall rank acc, thr (fun i => dims_loop (F i) fuel rank acc).
    Proof. induction fuel; intros; cbn [dims_loop]; th. Qed.
    Hint Resolve thr_pointer thr_member_pointer thr_dims : thr.
    Lemma thr_array : thr (fun i => demangle_array_type (F i) (K i)).
    Proof. unfold demangle_array_type. th. Qed.
    Hint Resolve thr_array : thr.
    Lemma thr_type m : thr (fun i => demangle_type (F i) (K i) m).
    Proof. unfold demangle_type, demangle_primitive_type. th. Qed.
    Lemma thr_template_symbol : thr (fun i => template_symbol (F i) (K i)).
    Proof. unfold template_symbol. th. Qed.
    Hint Resolve thr_template_symbol : thr.
    Lemma thr_template_arg : thr (fun i => template_arg (F i) (K i)).
    Proof. unfold template_arg. th. Qed.
    Hint Resolve thr_template_arg : thr.
    Lemma thr_targs fuel : forall acc, thr (fun i => targs_loop (F i) (K i) fuel acc).
    Proof. induction fuel; intros; cbn [targs_loop]; th. Qed.
    Hint Resolve thr_targs : thr.
    Lemma thr_template_list : thr (fun i => demangle_template_parameter_list (F i) (K i)).
    Proof. unfold demangle_template_parameter_list. th. Qed.
    Hint Resolve thr_template_list : thr.
    Lemma thr_tinst b : thr (fun i => demangle_template_instantiation_name (F i) (K i) b).
    Proof. unfold demangle_template_instantiation_name. th. Qed.
    Lemma thr_variable_encoding sc : thr (fun i => demangle_variable_encoding (F i) (K i) sc).
    Proof. unfold demangle_variable_encoding. th. Qed.
    Lemma thr_function_encoding : thr (fun i => demangle_function_encoding (F i) (K i)).
    Proof. unfold demangle_function_encoding. th. Qed.
    Hint Resolve thr_variable_encoding thr_function_encoding : thr.
    Lemma thr_encoded q : thr (fun i => demangle_encoded_symbol (F i) (K i) q).
    Proof. unfold demangle_encoded_symbol. th. Qed.
    Hint Resolve thr_encoded : thr.
    Lemma thr_declarator : thr (fun i => demangle_declarator (F i) (K i)).
    Proof. unfold demangle_declarator. th. Qed.
    Lemma thr_synth_id id : thr (fun i => synthesize_from_id (F i) id).
    Proof. unfold synthesize_from_id. th. Qed.
    Hint Resolve thr_declarator thr_synth_id : thr.
    Lemma thr_synth_name nm : thr (fun i => synthesize_from_name (F i) nm).
    Proof. unfold synthesize_from_name. th. Qed.
    Hint Resolve thr_synth_name : thr.
    Lemma thr_special_table k : thr (fun i => demangle_special_table_symbol_node (F i) (K i) k).
    Proof. unfold demangle_special_table_symbol_node. th. Qed.
    Lemma thr_lsg t : thr (fun i => demangle_local_static_guard (F i) (K i) t).
    Proof. unfold demangle_local_static_guard. th. Qed.
    Lemma thr_untyped nm : thr (fun i => demangle_untyped_variable (F i) (K i) nm).
    Proof. unfold demangle_untyped_variable. th. Qed.
    Lemma thr_rtti_bcd : thr (fun i => demangle_rtti_base_class_descriptor_node (F i) (K i)).
    Proof. unfold demangle_rtti_base_class_descriptor_node. th. Qed.
    Lemma thr_init_fini d : thr (fun i => demangle_init_fini_stub (F i) (K i) d).
    Proof. unfold demangle_init_fini_stub. th. Qed.
    Lemma thr_vcall : thr (fun i => demangle_vcall_thunk_node (F i) (K i)).
    Proof. unfold demangle_vcall_thunk_node. th. Qed.
    Lemma thr_rtti_td : thr (fun i => rtti_type_descriptor (F i) (K i)).
    Proof. unfold rtti_type_descriptor. th. Qed.
    Lemma thr_md5 : thr (fun i => demangle_md5_name (F i)).
    Proof. unfold demangle_md5_name. th. Qed.
    Lemma thr_typeinfo : thr (fun i => demangle_typeinfo_name (F i) (K i)).
    Proof. unfold demangle_typeinfo_name. th. Qed.
    Lemma thr_wide fuel : forall len tr ob, thr (fun i => wide_loop (F i) fuel len tr ob).
    Proof.
      induction fuel; intros; cbn [wide_loop]; [th|]. th. apply thr_run_w.
      apply thrw_if, Hstr.
    Qed.
    Lemma thr_narrow_out bytes sz' num tr count : forall j ob, thr (fun i => narrow_out (F i) bytes sz' num j count tr ob).
    Proof.
      induction count; intros; cbn [narrow_out]; [th|]. th. apply thr_run_w.
      apply thrw_if, Hstr.
    Qed.
    Hint Resolve thr_wide thr_narrow_out : thr.
    Lemma thr_string_literal : thr (fun i => demangle_string_literal (F i)).
    Proof. unfold demangle_string_literal. th. Qed.
    Hint Resolve thr_special_table thr_lsg thr_untyped thr_rtti_bcd thr_init_fini thr_vcall thr_rtti_td thr_md5
      thr_typeinfo thr_string_literal : thr.
    Lemma thr_special_intrinsic : thr (fun i => demangle_special_intrinsic (F i) (K i)).
    Proof. unfold demangle_special_intrinsic. th. Qed.
    Hint Resolve thr_special_intrinsic : thr.
    Lemma thr_do_parse : thr (fun i => do_parse (F i) (K i)).
    Proof. unfold do_parse. th. Qed.
  End Parser.

  Lemma thr_knot fuel : thr (fun i => k_parse (knot_of (F i) fuel)) /\
    (forall m, thr (fun i => k_type (knot_of (F i) fuel) m)) /\ forall b, thr (fun i => k_tinst (knot_of (F i) fuel) b).
  Proof.
    induction fuel as [|fuel (H1 & H2 & H3)]; cbn [knot_of k_parse k_type k_tinst].
    - repeat split; intros; apply thr_quiet, quiet_nofuel.
    - split; [apply (thr_do_parse (fun i => knot_of (F i) fuel)); assumption|]. split; intros.
      + apply (thr_type (fun i => knot_of (F i) fuel)); assumption.
      + apply (thr_tinst (fun i => knot_of (F i) fuel)); assumption.
  Qed.
End Thr.
