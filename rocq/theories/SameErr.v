(** The two parsers for Verdict.v: on a text without template instantiations, the parser takes the
    same path and meets the same error under any two environments with the same node budget,
    unless one of the runs is out of memory.  Proof infrastructure; see Verdict.v. *)
From Verif Require Import Parser Utf8 Lex Show Emit Wf Less LessOut LessParse StrLit OutErr Pieces.

Definition bad {A} (r : res A) : Prop := r = Panic \/ r = Fuel \/ r = Err (Io OutOfMemory).
(** Nodes up to the text of names. *)
Definition nr (n n' : node) : Prop :=
  match n, n' with
  | NNamed tp a, NNamed tp' a' => tp = tp' /\ ustr a /\ ustr a'
  | _, _ => n = n' /\ strs_ok n
  end.
Lemma nr_refl n : strs_ok n -> nr n n.
Proof. destruct n; cbn; auto. Qed.
Lemma nr_kind k n n' : nr n n' -> hkind k n = hkind k n'.
Proof. destruct n; try (intros [<- _]; reflexivity). destruct n'; try (intros [H _]; discriminate H). intros _. destruct k; reflexivity. Qed.
Lemma nr_strs n n' : nr n n' -> strs_ok n /\ strs_ok n'.
Proof. destruct n; try (intros [<- H]; auto). destruct n'; try (intros [H _]; discriminate H). intros (_ & H1 & H2). auto. Qed.
Record Q (s s' : st) : Prop := {
  q_ms : s_ms s' = s_ms s;
  q_fps : s_fps s' = s_fps s;
  q_names : s_names s' = s_names s;
  q_st : Forall2 nr (s_store s) (s_store s');
  q_nm : Forall (fun h => exists x, nth_error (s_store s) h = Some (NNamed None x) /\ nth_error (s_store s') h = Some (NNamed None x)) (s_names s);
  q_text : clean (tx s)
}.
Lemma q_len s s' : Q s s' -> length (s_store s') = length (s_store s).
Proof. intros H. pose proof (q_st _ _ H) as F. induction F; cbn; congruence. Qed.
Lemma f2_nth (sg sg' : store) h : Forall2 nr sg sg' ->
  match nth_error sg h, nth_error sg' h with Some n, Some n' => nr n n' | None, None => True | _, _ => False end.
Proof. intros H. revert h. induction H as [|a a' l l' Ha Hl IH]; intros [|h]; cbn; auto. apply IH. Qed.

Definition sat {A} (P : A -> Prop) (m m' : M A) (s s' : st) : Prop :=
  bad (m s) \/ bad (m' s') \/ (exists e, m s = Err e /\ m' s' = Err e) \/
  (exists a t t', m s = Ok (a, t) /\ m' s' = Ok (a, t') /\ P a /\ Q t t').
Definition sim {A} (P : A -> Prop) (m m' : M A) : Prop := forall s s', Q s s' -> sat P m m' s s'.
Lemma sim_ret {A} (P : A -> Prop) a : P a -> sim P (ret a) (ret a).
Proof. intros HP s s' H. right. right. right. exists a, s, s'. auto. Qed.
Lemma sim_fail {A} (P : A -> Prop) e : sim P (fail e) (fail e).
Proof. intros s s' H. right. right. left. exists e. auto. Qed.
Lemma sim_panic {A} (P : A -> Prop) m' : sim P panic m'.
Proof. intros s s' H. left. left. reflexivity. Qed.
Lemma sim_fuel {A} (P : A -> Prop) m' : sim P nofuel m'.
Proof. intros s s' H. left. right. left. reflexivity. Qed.
Lemma bad_bind {A B} (m : M A) (f : A -> M B) s : bad (m s) -> bad (bind m f s).
Proof. unfold bad, bind. intros [-> | [-> | ->]]; auto. Qed.
Lemma sim_bind {A B} (P : A -> Prop) (R : B -> Prop) m m' f f' : sim P m m' -> (forall a, P a -> sim R (f a) (f' a)) -> sim R (bind m f) (bind m' f').
Proof.
  intros Hm Hf s s' HQ. destruct (Hm s s' HQ) as [H|[H|[(e & H1 & H2)|(a & t & t' & H1 & H2 & HP & HQ')]]].
  - left. apply bad_bind, H.
  - right. left. apply bad_bind, H.
  - right. right. left. exists e. unfold bind. rewrite H1, H2. auto.
  - specialize (Hf a HP t t' HQ'). unfold sat, bind in *. rewrite H1, H2. exact Hf.
Qed.
Lemma sat_step {A B} (R : B -> Prop) (m m' : M A) f f' a s s' t t' : m s = Ok (a, t) -> m' s' = Ok (a, t') -> sat R (f a) (f' a) t t' -> sat R (bind m f) (bind m' f') s s'.
Proof. intros H1 H2 H. unfold sat, bind in *. rewrite H1, H2. exact H. Qed.
Lemma sim_weak {A} (P R : A -> Prop) m m' : (forall a, P a -> R a) -> sim P m m' -> sim R m m'.
Proof. intros HP H s s' HQ. destruct (H s s' HQ) as [G|[G|[G|(a & t & t' & H1 & H2 & H3 & H4)]]]; unfold sat; auto. right. right. right. exists a, t, t'. auto. Qed.
Lemma sim_tt {A} (P : A -> Prop) m m' : sim P m m' -> sim tt_ m m'.
Proof. apply sim_weak. intros; exact I. Qed.
Lemma sim_ok_or {A} (P : A -> Prop) (o : option A) e : (forall a, o = Some a -> P a) -> sim P (ok_or o e) (ok_or o e).
Proof. destruct o; intros H; [apply sim_ret; auto|apply sim_fail]. Qed.
Lemma sim_text : sim clean text text.
Proof. intros s s' H. right. right. right. exists (tx s), s, s'. unfold sat, text. rewrite (q_ms _ _ H). repeat (split; [reflexivity|]). split; [exact (q_text _ _ H)|exact H]. Qed.
Lemma sim_len : sim tt_ len_chars len_chars.
Proof. intros s s' H. right. right. right. exists (ms_chars (s_ms s)), s, s'. unfold len_chars. rewrite (q_ms _ _ H). split; [reflexivity|]. split; [reflexivity|]. split; [exact I|exact H]. Qed.
Lemma Q_set_ms s s' m : Q s s' -> clean (ms_str m) -> Q (set_ms m s) (set_ms m s').
Proof. intros [H1 H2 H3 H4 H5 H6] Hc. constructor; cbn; try assumption. reflexivity. Qed.
Lemma sim_lift {A} (f : mstring -> mres A) : sufm f -> sim tt_ (lift f) (lift f).
Proof.
  intros Hf s s' H. unfold sat, lift. rewrite (q_ms _ _ H). destruct (f (s_ms s)) as [[o m]|e| |] eqn:Ef.
  - right. right. right. exists o, (set_ms m s), (set_ms m s'). split; [reflexivity|]. split; [reflexivity|]. split; [exact I|]. apply Q_set_ms; [assumption|].
    destruct (Hf _ _ _ Ef) as [p Hp]. pose proof (q_text _ _ H) as Hc. unfold tx in Hc. rewrite Hp in Hc. apply clean_suf in Hc. exact Hc.
  - right. right. left. exists e. auto.
  - left. left. reflexivity.
  - left. right. left. reflexivity.
Qed.
Ltac s1 :=
  match goal with
  | |- sim _ (bind text _) (bind text _) => eapply sim_bind; [apply sim_text|intros ? ?]
  | |- sim _ (bind _ _) (bind _ _) => eapply (sim_bind tt_); [|intros ? _]
  | |- sim _ (ret _) (ret _) => apply sim_ret; try exact I
  | |- sim _ (fail _) _ => apply sim_fail
  | |- sim _ panic _ => apply sim_panic
  | |- sim _ nofuel _ => apply sim_fuel
  | |- sim _ text _ => eapply sim_tt, sim_text
  | |- sim _ len_chars _ => apply sim_len
  | |- sim _ (ok_or _ _) _ => apply sim_ok_or; intros; try exact I
  | |- sim _ (lift _) _ => apply sim_lift; first [apply suf_consume|apply suf_if|apply suf_bytes|apply suf_2|apply suf_str]
  | |- sim _ (if ?b then _ else _) (if ?b then _ else _) => destruct b
  | |- sim _ (match ?x with _ => _ end) (match ?x with _ => _ end) => destruct x
  end.
Ltac sa := repeat s1.
Lemma sim_next e : sim tt_ (next_char e) (next_char e). Proof. unfold next_char. sa. Qed.
Lemma sim_eat_if f : sim tt_ (eat_if f) (eat_if f). Proof. unfold eat_if. sa. Qed.
Lemma sim_eat_char c : sim tt_ (eat_char c) (eat_char c). Proof. unfold eat_char, try_consume_char. sa. Qed.
Lemma sim_eat_str p : sim tt_ (eat_str p) (eat_str p). Proof. unfold eat_str. sa. Qed.
Lemma sim_expect_char c e : sim tt_ (expect_char c e) (expect_char c e). Proof. unfold expect_char, eat_char, try_consume_char. sa. Qed.
Lemma sim_expect_str p e : sim tt_ (expect_str p e) (expect_str p e). Proof. unfold expect_str, eat_str. sa. Qed.
Ltac sb := repeat first
  [ apply sim_next | apply sim_eat_if | apply sim_eat_char | apply sim_eat_str | apply sim_expect_char | apply sim_expect_str | s1 ].
Lemma sim_special t : sim tt_ (consume_special t) (consume_special t).
Proof. induction t as [|[p k] t IH]; cbn [consume_special]; sb. exact IH. Qed.
Lemma sim_pext : sim tt_ pointer_ext_qualifiers pointer_ext_qualifiers. Proof. unfold pointer_ext_qualifiers. sb. Qed.
Lemma sim_number_loop fuel : forall c n, sim tt_ (number_loop fuel c n) (number_loop fuel c n).
Proof. induction fuel; intros c n; cbn [number_loop]; sb. apply IHfuel. Qed.
Lemma sim_number : sim tt_ demangle_number demangle_number. Proof. unfold demangle_number. sb. apply sim_number_loop. Qed.
Lemma sim_unsigned : sim tt_ demangle_unsigned demangle_unsigned. Proof. unfold demangle_unsigned. eapply (sim_bind tt_); [apply sim_number|]. intros [] _. sb. Qed.
Lemma sim_signed : sim tt_ demangle_signed demangle_signed. Proof. unfold demangle_signed. eapply (sim_bind tt_); [apply sim_number|]. intros [] _. sb. Qed.
Lemma sim_u32 n e : sim tt_ (to_u32 n e) (to_u32 n e). Proof. unfold to_u32. sb. Qed.
Lemma sim_i32 n e : sim tt_ (to_i32 n e) (to_i32 n e). Proof. unfold to_i32. sb. Qed.
Lemma sim_quals : sim tt_ demangle_qualifiers demangle_qualifiers. Proof. unfold demangle_qualifiers. sb. Qed.
Lemma sim_pcv : sim tt_ demangle_pointer_cv_qualifiers demangle_pointer_cv_qualifiers. Proof. unfold demangle_pointer_cv_qualifiers. sb. Qed.
Lemma sim_rq : sim tt_ demangle_function_ref_qualifier demangle_function_ref_qualifier. Proof. unfold demangle_function_ref_qualifier. sb. Qed.
Lemma sim_cc : sim tt_ demangle_calling_convention demangle_calling_convention. Proof. unfold demangle_calling_convention. sb. Qed.
Lemma sim_sc : sim tt_ demangle_variable_storage_class demangle_variable_storage_class. Proof. unfold demangle_variable_storage_class. sb. Qed.
Lemma sim_throw : sim tt_ demangle_throw_specification demangle_throw_specification. Proof. unfold demangle_throw_specification. sb. Qed.
Lemma sim_fc : sim tt_ demangle_function_class demangle_function_class. Proof. unfold demangle_function_class. sb. Qed.
Lemma sim_prim : sim tt_ demangle_primitive_kind demangle_primitive_kind. Proof. unfold demangle_primitive_kind. sb. Qed.
Lemma sim_translate c g : sim tt_ (translate_intrinsic c g) (translate_intrinsic c g). Proof. unfold translate_intrinsic. sb. Qed.
Lemma sim_char : sim tt_ demangle_char_literal demangle_char_literal. Proof. unfold demangle_char_literal. sb. Qed.
Lemma sim_wchar : sim tt_ demangle_wchar_literal demangle_wchar_literal. Proof. unfold demangle_wchar_literal. sb; apply sim_char. Qed.
Lemma sim_adjust fc : sim tt_ (this_adjust fc) (this_adjust fc).
Proof. unfold this_adjust. sb; apply sim_signed. Qed.

Lemma esc_ustr c : ustr (escaped_char c).
Proof.
  rewrite escape_eq. eapply Forall_impl; [|apply printable_ascii, printable_escape]. cbv beta. intros x Hx. unfold scalar.
  destruct (N.ltb_spec x 0xD800)%N; [reflexivity|lia].
Qed.
Section Parse.
  Variables E E' : env.
  Hypothesis HN : e_nodes E = e_nodes E'.
  Hypothesis Hgrow : e_grow E = e_grow E'.

  Lemma Q_app s s' n n' : Q s s' -> nr n n' -> Q (set_store (s_store s ++ [n]) s) (set_store (s_store s' ++ [n']) s').
  Proof.
    intros [H1 H2 H3 H4 H5 H6] Hn. constructor; cbn [s_ms s_fps s_names s_store set_store]; try assumption.
    - apply Forall2_app; [assumption|]. constructor; [assumption|constructor].
    - eapply Forall_impl; [|exact H5]. intros h (x & G1 & G2). exists x.
      assert (A : forall (sg : store) k m, nth_error sg h = Some m -> nth_error (sg ++ [k]) h = Some m).
      { intros sg k m Hm. rewrite nth_error_app1; [assumption|]. apply nth_error_Some. congruence. }
      auto.
  Qed.
  Lemma sim_intern2 n n' : nr n n' -> sim tt_ (intern E n) (intern E' n').
  Proof.
    intros Hn s s' H. unfold sat, intern. rewrite (q_len _ _ H), <- HN. destruct (e_nodes E <? _)%N.
    - right. right. left. eexists. split; reflexivity.
    - right. right. right. eexists _, _, _. split; [reflexivity|]. split; [reflexivity|]. split; [exact I|]. apply Q_app; assumption.
  Qed.
  Lemma sim_intern n : strs_ok n -> sim tt_ (intern E n) (intern E' n).
  Proof. intros. apply sim_intern2, nr_refl; assumption. Qed.
  Lemma sim_res {B} (R : B -> Prop) k h f f' :
    (forall n n', hkind k n = true -> nr n n' -> sim R (f n) (f' n')) -> sim R (bind (res_ k h) f) (bind (res_ k h) f').
  Proof.
    intros Hf s s' HQ. unfold sat, bind, res_, resolve. pose proof (f2_nth _ _ h (q_st _ _ HQ)) as Hr.
    destruct (nth_error (s_store s) h) as [n|], (nth_error (s_store s') h) as [n'|]; try contradiction; [|left; left; reflexivity].
    rewrite <- (nr_kind k _ _ Hr). destruct (hkind k n) eqn:Hk; [|left; left; reflexivity]. apply Hf; assumption.
  Qed.
  Lemma f2_upd (sg sg' : store) h n n' : Forall2 nr sg sg' -> nr n n' -> Forall2 nr (upd sg h n) (upd sg' h n').
  Proof. intros H Hn. revert h. induction H as [|a a' l l' Ha Hl IH]; intros [|h]; cbn [upd]; constructor; auto. Qed.
  Lemma sim_modify k h f : tame f -> sim tt_ (modify k h f) (modify k h f).
  Proof.
    intros Hf s s' HQ. unfold sat, modify, resolve. pose proof (f2_nth _ _ h (q_st _ _ HQ)) as Hr.
    destruct (nth_error (s_store s) h) as [n|] eqn:N1, (nth_error (s_store s') h) as [n'|] eqn:N2; try contradiction; [|left; left; reflexivity].
    rewrite <- (nr_kind k _ _ Hr). destruct (hkind k n) eqn:Hk; [|left; left; reflexivity].
    right. right. right. eexists tt, _, _. split; [reflexivity|]. split; [reflexivity|]. split; [exact I|]. destruct HQ as [H1 H2 H3 H4 H5 H6].
    constructor; cbn [s_ms s_fps s_names s_store set_store]; try assumption.
    - apply f2_upd; [assumption|]. destruct n; try (destruct Hr as [<- Hs]; apply nr_refl, t_strs; assumption).
      destruct n'; try (destruct Hr as [Hr _]; discriminate Hr). rewrite !(t_fixed _ Hf) by reflexivity. exact Hr.
    - eapply Forall_impl; [|exact H5]. intros i (x & G1 & G2). exists x. destruct (Nat.eq_dec i h) as [->|Hi].
      + assert (n = NNamed None x) by congruence. assert (n' = NNamed None x) by congruence. subst n n'.
        rewrite (t_fixed _ Hf) by reflexivity. split; eapply nth_upd_same; eassumption.
      + rewrite !nth_upd_other by assumption. auto.
  Qed.
  Lemma sim_get {B} (R : B -> Prop) f f' : (forall s s', Q s s' -> sat R (f s) (f' s') s s') -> sim R (bind get f) (bind get f').
  Proof. intros H s s' HQ. exact (H s s' HQ). Qed.
  Definition not_named (n : node) : bool := match n with NNamed _ _ => false | _ => true end.
  Lemma sim_res2 {B} (R : B -> Prop) k h f f' :
    (forall n, hkind k n = true -> not_named n = true -> sim R (f n) (f' n)) ->
    (forall tp a a', hkind k (NNamed tp a) = true -> sim R (f (NNamed tp a)) (f' (NNamed tp a'))) ->
    sim R (bind (res_ k h) f) (bind (res_ k h) f').
  Proof.
    intros H1 H2. apply sim_res. intros n n' Hk Hr. destruct n; try (destruct Hr as [<- _]; apply H1; [assumption|reflexivity]).
    destruct n'; try (destruct Hr as [Hr _]; discriminate Hr). destruct Hr as [<- _]. apply H2; assumption.
  Qed.
  Ltac s2 := first
    [ apply sim_next | apply sim_eat_if | apply sim_eat_char | apply sim_eat_str | apply sim_expect_char | apply sim_expect_str
    | apply sim_special | apply sim_pext | apply sim_number | apply sim_unsigned | apply sim_signed | apply sim_u32 | apply sim_i32
    | apply sim_quals | apply sim_pcv | apply sim_rq | apply sim_cc | apply sim_sc | apply sim_throw | apply sim_fc | apply sim_prim
    | apply sim_translate | apply sim_char | apply sim_wchar | apply sim_adjust
    | apply sim_modify; first [apply tame_quals|apply tame_class|apply tame_sym|apply tame_set_class|apply tame_target|apply tame_scope|apply tame_func|apply tame_vcall]
    | apply sim_intern; try exact I | s1 ].
  Ltac sc := repeat s2.

  (** *** Names *)
  Lemma sim_names l s s' : Q s s' -> Forall (fun h => exists x, nth_error (s_store s) h = Some (NNamed None x) /\ nth_error (s_store s') h = Some (NNamed None x)) l ->
    exists r, resolve_names l s = Ok (r, s) /\ resolve_names l s' = Ok (r, s').
  Proof.
    intros HQ. induction l as [|h l IH]; intros Hl; cbn [resolve_names]; [exists []; auto|].
    inversion Hl as [|? ? (x & H1 & H2) Hl']; subst. destruct (IH Hl') as (r & I1 & I2). exists (x :: r).
    unfold bind, res_, resolve. rewrite H1, H2. cbn [hkind is_ident]. rewrite I1, I2. auto.
  Qed.
  Lemma sim_memorize name : ustr name -> sim tt_ (memorize_string E name) (memorize_string E' name).
  Proof.
    intros Hu. unfold memorize_string. apply sim_get. intros s s' HQ. rewrite (q_names _ _ HQ).
    destruct (10 <=? length (s_names s)) eqn:Hl; [apply sim_ret; [exact I|assumption]|].
    destruct (sim_names (s_names s) s s' HQ (q_nm _ _ HQ)) as (r & R1 & R2). eapply sat_step; [exact R1|exact R2|].
    destruct (existsb _ _); [apply sim_ret; [exact I|assumption]|].
    unfold sat, bind, intern. rewrite (q_len _ _ HQ), <- HN. destruct (e_nodes E <? _)%N; [right; right; left; eexists; split; reflexivity|].
    right. right. right. eexists _, _, _. split; [reflexivity|]. split; [reflexivity|]. split; [exact I|].
    destruct (Q_app s s' (NNamed None name) (NNamed None name) HQ) as [H1 H2 H3 H4 H5 H6]; [apply nr_refl; exact Hu|].
    constructor; cbn [s_ms s_fps s_names s_store set_store set_names] in *; try assumption.
    - rewrite H3. reflexivity.
    - apply Forall_app. split; [assumption|]. constructor; [|constructor]. exists name.
      rewrite <- (q_len _ _ HQ) at 2. rewrite !nth_error_app2, !Nat.sub_diag by lia. auto.
  Qed.
  Lemma sim_bytes n : sim (fun o => forall x, o = Some x -> ustr x) (lift (try_consume_n_bytes n)) (lift (try_consume_n_bytes n)).
  Proof.
    intros s s' HQ. destruct (sim_lift _ (suf_bytes n) s s' HQ) as [H|[H|[H|(a & t & t' & H1 & H2 & _ & H3)]]]; unfold sat; auto.
    right. right. right. exists a, t, t'. split; [assumption|]. split; [assumption|]. split; [|assumption]. intros x ->.
    unfold lift in H1. destruct (try_consume_n_bytes n (s_ms s)) as [[o m]| | |] eqn:Ho; try discriminate. injection H1 as -> _.
    unfold try_consume_n_bytes in Ho. destruct (split_bytes n (ms_str (s_ms s))) as [[u v]|] eqn:Hs; [|discriminate].
    suf. injection Ho as -> _. apply split_bytes_spec in Hs. pose proof (proj1 (q_text _ _ HQ)) as Hc. unfold tx in Hc.
    rewrite (proj1 Hs) in Hc. apply Forall_app in Hc. apply Hc.
  Qed.
  Ltac byt := eapply sim_bind; [apply sim_bytes|]; cbv beta; intros ? ?; eapply (sim_bind ustr); [apply sim_ok_or; assumption|intros ? ?].
  Lemma sim_simple_string mem : sim ustr (demangle_simple_string E mem) (demangle_simple_string E' mem).
  Proof.
    unfold demangle_simple_string. s1. s1; [sc|]. s1; [sc|]. byt. s1; [sc|]. s1; [|sc; assumption]. destruct mem; [apply sim_memorize; assumption|sc].
  Qed.
  Lemma sim_simple_name mem : sim tt_ (demangle_simple_name E mem) (demangle_simple_name E' mem).
  Proof. unfold demangle_simple_name. eapply sim_bind; [apply sim_simple_string|]. intros x Hx. apply sim_intern. exact Hx. Qed.
  Lemma sim_back_ref : sim tt_ demangle_back_ref_name demangle_back_ref_name.
  Proof. unfold demangle_back_ref_name. s1; [sc|]. s1; [sc|]. apply sim_get. intros s s' HQ. rewrite (q_names _ _ HQ). apply sim_ok_or; [intros; exact I|assumption]. Qed.
  Lemma sim_anon : sim tt_ (demangle_anonymous_namespace_name E) (demangle_anonymous_namespace_name E').
  Proof.
    unfold demangle_anonymous_namespace_name. s1; [sc|]. s1. s1; [sc|]. byt. s1; [apply sim_memorize; assumption|]. s1; [sc|].
    apply sim_intern. cbn [strs_ok]. us.
  Qed.

  (** *** Rendering a scope *)
  Lemma run_text F sg scope tail b : (forall h n, nth_error sg h = Some n -> strs_ok n) -> ustr tail -> textb b ->
    match (w_str F (L "`") >> output F sg KSym scope >> w_str F tail) b with (b', Ok _) => textb b' | (_, Err e) => e = Io OutOfMemory | _ => True end.
  Proof. intros Hs Ht Hb. refine (gw_seq _ _ _ (gw_seq _ _ _ _) b Hb); [apply gw_str; us|apply gw_output; assumption|apply gw_str; assumption]. Qed.
  Lemma q_strs s s' : Q s s' -> (forall h n, nth_error (s_store s) h = Some n -> strs_ok n) /\ (forall h n, nth_error (s_store s') h = Some n -> strs_ok n).
  Proof.
    intros HQ. split; intros h n Hn; pose proof (f2_nth _ _ h (q_st _ _ HQ)) as Hr; rewrite Hn in Hr.
    - destruct (nth_error (s_store s') h); [|contradiction]. apply nr_strs in Hr. apply Hr.
    - destruct (nth_error (s_store s) h); [|contradiction]. apply nr_strs in Hr. apply Hr.
  Qed.
  Lemma textb_nil c : textb (mkBuf [] c). Proof. exists []. split; [reflexivity|constructor]. Qed.
  Lemma render_text F scope tail s : (forall h n, nth_error (s_store s) h = Some n -> strs_ok n) -> ustr tail ->
    bad (render (fun sg => w_str F (L "`") >> output F sg KSym scope >> w_str F tail) s) \/
    exists x, ustr x /\ render (fun sg => w_str F (L "`") >> output F sg KSym scope >> w_str F tail) s = Ok (x, s).
  Proof.
    intros Hs Ht. unfold render, bind, get, run_w. pose proof (run_text F (s_store s) scope tail (mkBuf [] 0) Hs Ht (textb_nil 0)) as H.
    destruct ((w_str F (L "`") >> output F (s_store s) KSym scope >> w_str F tail) (mkBuf [] 0)) as [b [[]|e| |]].
    - right. destruct H as (x & H1 & H2). exists x. split; [assumption|]. unfold take_text. rewrite H1, from_utf8_utf8 by exact H2. reflexivity.
    - left. right. right. rewrite H. reflexivity.
    - left. left. reflexivity.
    - left. right. left. reflexivity.
  Qed.
  Lemma sim_render (scope : handle) (n : N) : sim tt_
      (name <- render (fun sg => w_str E (L "`") >> output E sg KSym scope >> w_str E (L "'::`" ++ dec_N n ++ L "'")) ;; intern E (NNamed None name))
      (name <- render (fun sg => w_str E' (L "`") >> output E' sg KSym scope >> w_str E' (L "'::`" ++ dec_N n ++ L "'")) ;; intern E' (NNamed None name)).
  Proof.
    intros s s' HQ. destruct (q_strs _ _ HQ) as [S1 S2].
    destruct (render_text E scope (L "'::`" ++ dec_N n ++ L "'") s S1 ltac:(us)) as [H|(x & Hx & H)]; [left; apply bad_bind; exact H|].
    destruct (render_text E' scope (L "'::`" ++ dec_N n ++ L "'") s' S2 ltac:(us)) as [H'|(x' & Hx' & H')]; [right; left; apply bad_bind; exact H'|].
    pose proof (sim_intern2 (NNamed None x) (NNamed None x') (conj eq_refl (conj Hx Hx')) s s' HQ) as Hi.
    unfold sat, bind in *. rewrite H, H'. exact Hi.
  Qed.

  Variables K K' : knot.
  Hypothesis HKp : sim tt_ (k_parse K) (k_parse K').
  Hypothesis HKt : forall m, sim tt_ (k_type K m) (k_type K' m).

  (** *** Scopes *)
  Lemma sim_local : sim tt_ (demangle_locally_scoped_name_piece E K) (demangle_locally_scoped_name_piece E' K').
  Proof.
    unfold demangle_locally_scoped_name_piece. s1; [sc|]. s1; [sc|]. match goal with |- sim _ (let '(_, _) := ?p in _) _ => destruct p end. s1; [sc|]. s1; [sc|]. s1; [exact HKp|]. apply sim_render.
  Qed.
  Lemma sim_piece : sim tt_ (demangle_name_scope_piece E K) (demangle_name_scope_piece E' K').
  Proof.
    unfold demangle_name_scope_piece. s1. s1; [apply sim_back_ref|]. rewrite (clean_sw _ H). s1; [apply sim_anon|].
    s1; [s1|..]; first [apply sim_local|apply sim_simple_name|sc].
  Qed.
  Lemma sim_scope_loop fuel : forall acc, sim tt_ (scope_loop E K fuel acc) (scope_loop E' K' fuel acc).
  Proof.
    induction fuel as [|fuel IH]; intros acc; cbn [scope_loop]; [sc|]. s1; [sc|]. s1; [sc|]. s1. s1; [sc|]. s1; [apply sim_piece|]. apply IH.
  Qed.
  Lemma sim_chain id : sim tt_ (demangle_name_scope_chain E K id) (demangle_name_scope_chain E' K' id).
  Proof. unfold demangle_name_scope_chain. s1. s1; [apply sim_scope_loop|]. sc. Qed.

  (** *** Identifiers *)
  Lemma sim_code_group g : sim tt_ (demangle_function_identifier_code_group E g) (demangle_function_identifier_code_group E' g).
  Proof.
    unfold demangle_function_identifier_code_group. s1; [sc|]. cbv zeta. destruct g; [sc|sc|]. s1; [|sc].
    eapply sim_bind; [apply sim_simple_string|]. intros x Hx. apply sim_intern. exact Hx.
  Qed.
  Lemma sim_code : sim tt_ (demangle_function_identifier_code E) (demangle_function_identifier_code E').
  Proof. unfold demangle_function_identifier_code. sc; apply sim_code_group. Qed.
  Lemma sim_utype mem : sim tt_ (demangle_unqualified_type_name E K mem) (demangle_unqualified_type_name E' K' mem).
  Proof. unfold demangle_unqualified_type_name. s1. rewrite (clean_sw _ H). s1; [apply sim_back_ref|apply sim_simple_name]. Qed.
  Lemma sim_usym b : sim tt_ (demangle_unqualified_symbol_name E K b) (demangle_unqualified_symbol_name E' K' b).
  Proof. unfold demangle_unqualified_symbol_name. s1. rewrite (clean_sw _ H). s1; [apply sim_back_ref|]. s1; [apply sim_code|apply sim_simple_name]. Qed.
  Lemma sim_fqt : sim tt_ (demangle_fully_qualified_type_name E K) (demangle_fully_qualified_type_name E' K').
  Proof. unfold demangle_fully_qualified_type_name. s1; [apply sim_utype|]. apply sim_chain. Qed.
  Ltac dn := let n := fresh "n" in let Hk := fresh "Hk" in intros n Hk ?; destruct n; try discriminate Hk; try discriminate.
  Ltac nm := let Hk := fresh "Hk" in intros ? ? ? Hk; try discriminate Hk.
  Lemma sim_fqs : sim tt_ (demangle_fully_qualified_symbol_name E K) (demangle_fully_qualified_symbol_name E' K').
  Proof.
    unfold demangle_fully_qualified_symbol_name. s1; [apply sim_usym|]. s1; [apply sim_chain|].
    apply sim_res2; [|intros; sc]. dn; try solve [sc].
    apply sim_res2; [|nm]. dn. apply sim_res2; [|nm]. dn.
    s1; [|sc]. s1; [sc|]. s1; [|sc]. apply sim_res2; intros; cbn [is_ident]; sc.
  Qed.

  (** *** Types *)
  Ltac dp := match goal with |- sim _ (let '(_, _) := ?p in _) _ => destruct p end.
  Lemma sim_custom : sim tt_ (demangle_custom_type E K) (demangle_custom_type E' K').
  Proof. unfold demangle_custom_type. s1; [sc|]. s1; [apply sim_utype|]. sc. Qed.
  Lemma sim_class : sim tt_ (demangle_class_type E K) (demangle_class_type E' K').
  Proof. unfold demangle_class_type. s1; [sc|]. s1; [sc|]. s1; [apply sim_fqt|]. sc. Qed.
  Lemma Q_fps s s' h : Q s s' -> Q (set_fps (s_fps s ++ [h]) s) (set_fps (s_fps s ++ [h]) s').
  Proof. intros [H1 H2 H3 H4 H5 H6]. constructor; cbn [s_ms s_fps s_names s_store set_fps]; try assumption. reflexivity. Qed.
  Lemma sim_params fuel : forall acc, sim tt_ (params_loop K fuel acc) (params_loop K' fuel acc).
  Proof.
    induction fuel as [|fuel IH]; intros acc; cbn [params_loop]; [sc|]. s1. s1; [sc|]. s1; [sc|]. s1; [sc|]. destruct a0 as [d|].
    - apply sim_get. intros s s' HQ. rewrite (q_fps _ _ HQ). eapply (sim_bind tt_); [apply sim_ok_or; intros; exact I| |exact HQ]. intros. apply IH.
    - s1; [sc|]. s1; [apply HKt|]. s1; [sc|]. s1; [sc|]. s1; [|apply IH]. s1; [sc|]. s1; [sc|].
      intros s s' HQ. right. right. right. eexists tt, _, _. split; [reflexivity|]. split; [reflexivity|]. split; [exact I|].
      rewrite (q_fps _ _ HQ). destruct (length (s_fps s) <? 10); [apply Q_fps|]; assumption.
  Qed.
  Lemma sim_param_list : sim tt_ (demangle_function_parameter_list E K) (demangle_function_parameter_list E' K').
  Proof. unfold demangle_function_parameter_list. s1; [sc|]. s1; [sc|]. s1. s1; [apply sim_params|]. sc. Qed.
  Lemma sim_function b : sim tt_ (demangle_function_type E K b) (demangle_function_type E' K' b).
  Proof.
    unfold demangle_function_type. s1; [sc|]. dp. s1; [sc|]. s1; [sc|]. s1; [s1; [sc|]; s1; [apply HKt|sc]|]. s1; [apply sim_param_list|]. sc.
  Qed.
  Lemma sim_pointer : sim tt_ (demangle_pointer_type E K) (demangle_pointer_type E' K').
  Proof.
    unfold demangle_pointer_type. s1; [sc|]. dp. s1; [sc|]. s1; [|sc]. s1; [s1; [apply sim_function|sc]|]. s1; [sc|]. s1; [apply HKt|]. sc.
  Qed.
  Lemma sim_member : sim tt_ (demangle_member_pointer_type E K) (demangle_member_pointer_type E' K').
  Proof.
    unfold demangle_member_pointer_type. s1; [sc|]. match goal with |- sim _ (let '(_, _) := ?p in _) _ => destruct p as [quals aff] end. destruct aff; try solve [sc]. s1; [sc|]. s1; [sc|]. s1.
    - s1; [apply sim_fqt|]. s1; [apply sim_function|]. sc.
    - s1; [sc|]. dp. s1; [|sc]. s1; [apply sim_fqt|]. s1; [apply HKt|]. sc.
  Qed.
  Lemma sim_dims fuel : forall rank acc, sim tt_ (dims_loop E fuel rank acc) (dims_loop E' fuel rank acc).
  Proof. induction fuel as [|fuel IH]; intros rank acc; cbn [dims_loop]; s1; [sc|sc|sc|]. s1; [sc|]. dp. s1; [sc|]. s1; [sc|]. apply IH. Qed.
  Lemma sim_array : sim tt_ (demangle_array_type E K) (demangle_array_type E' K').
  Proof.
    unfold demangle_array_type. s1; [sc|]. s1; [sc|]. dp. s1; [sc|]. s1. s1; [apply sim_dims|]. s1; [sc|]. s1; [sc|]. s1; [sc|]. s1; [apply HKt|]. sc.
  Qed.
  Lemma sim_type m : sim tt_ (demangle_type E K m) (demangle_type E' K' m).
  Proof.
    unfold demangle_type. s1; [sc|]. s1. s1; [sc|]. s1; [|sc]. s1; [apply sim_class|]. s1.
    { destruct (is_member_pointer a0) as [[]|]; [apply sim_member|apply sim_pointer|sc]. }
    s1; [apply sim_array|]. s1; [s1; [sc|]; s1; [apply sim_function|]; s1; [sc|]; s1; [apply sim_function|sc]|].
    s1; [apply sim_custom|]. unfold demangle_primitive_type. sc.
  Qed.

  (** *** Symbols *)
  Lemma sim_uid q : sim tt_ (unqualified_identifier q) (unqualified_identifier q).
  Proof.
    unfold unqualified_identifier. apply sim_res2; [|nm]. dn. apply sim_res2; [|nm]. dn. s1; [sc|]. apply sim_res2; intros; sc.
  Qed.
  Lemma sim_variable c : sim tt_ (demangle_variable_encoding E K c) (demangle_variable_encoding E' K' c).
  Proof.
    unfold demangle_variable_encoding. s1; [apply HKt|]. apply sim_res2; [|nm]. intros n Hk Hnn. s1; [|sc].
    destruct n; try solve [sc]. s1; [sc|]. s1; [sc|].
    apply sim_res2; [|nm]. dn. s1; [sc|]. dp. s1; [|sc]. s1; [|sc]. s1; [apply sim_fqt|]. sc.
  Qed.
  Lemma sim_function_encoding : sim tt_ (demangle_function_encoding E K) (demangle_function_encoding E' K').
  Proof.
    unfold demangle_function_encoding. s1; [sc|]. s1. s1; [sc|]. s1; [sc|]. cbv zeta. s1; [sc|].
    s1; [s1; [sc|]; apply sim_function|]. s1; [|sc]. s1; [|sc]. apply sim_res2; [|nm]. dn. sc.
  Qed.
  Lemma sim_encoded name : sim tt_ (demangle_encoded_symbol E K name) (demangle_encoded_symbol E' K' name).
  Proof.
    unfold demangle_encoded_symbol. s1. s1; [sc|]. s1; [s1; [sc|]; apply sim_variable|].
    s1; [apply sim_function_encoding|]. apply sim_res2; [|nm]. dn. apply sim_res2; [|nm]. intros sn Hks Hns. s1; [apply sim_uid|]. sc.
  Qed.
  Lemma sim_declarator : sim tt_ (demangle_declarator E K) (demangle_declarator E' K').
  Proof.
    unfold demangle_declarator. s1; [apply sim_fqs|]. s1; [apply sim_encoded|]. s1; [sc|]. s1; [apply sim_uid|]. s1; [sc|].
    apply sim_res2; [|intros; sc]. intros n Hk Hnn. destruct n; try solve [sc].
  Qed.

  (** *** Specials *)
  Lemma sim_table k : sim tt_ (demangle_special_table_symbol_node E K k) (demangle_special_table_symbol_node E' K' k).
  Proof.
    unfold demangle_special_table_symbol_node. eapply (sim_bind ustr).
    { destruct k; first [apply sim_fail|apply sim_ret; us]. }
    intros name Hu. s1; [apply sim_intern; exact Hu|]. s1; [apply sim_chain|]. s1; [sc|]. s1; [sc|]. s1; [sc|]. dp. s1; [sc|]. s1; [|sc].
    s1; [sc|]. s1; [apply sim_fqt|]. sc.
  Qed.
  Lemma sim_guard th : sim tt_ (demangle_local_static_guard E K th) (demangle_local_static_guard E' K' th).
  Proof. unfold demangle_local_static_guard. s1; [sc|]. s1; [apply sim_chain|]. sc. Qed.
  Lemma sim_untyped name : ustr name -> sim tt_ (demangle_untyped_variable E K name) (demangle_untyped_variable E' K' name).
  Proof. intros Hn. unfold demangle_untyped_variable. s1; [apply sim_intern; exact Hn|]. s1; [apply sim_chain|]. sc. Qed.
  Lemma sim_rtti_base : sim tt_ (demangle_rtti_base_class_descriptor_node E K) (demangle_rtti_base_class_descriptor_node E' K').
  Proof.
    unfold demangle_rtti_base_class_descriptor_node. do 8 (s1; [sc|]). s1; [sc|]. s1; [apply sim_chain|]. sc.
  Qed.
  Lemma sim_synth id : sim tt_ (synthesize_from_id E id) (synthesize_from_id E' id).
  Proof. unfold synthesize_from_id. sc. Qed.
  Lemma sim_synth_name x : ustr x -> sim tt_ (synthesize_from_name E x) (synthesize_from_name E' x).
  Proof. intros Hx. unfold synthesize_from_name. s1; [apply sim_intern; exact Hx|]. apply sim_synth. Qed.
  Lemma sim_stub d : sim tt_ (demangle_init_fini_stub E K d) (demangle_init_fini_stub E' K' d).
  Proof.
    unfold demangle_init_fini_stub. s1; [sc|]. s1; [apply sim_declarator|].
    apply sim_res2; [|nm]. intros n Hk Hnn. destruct n; try apply sim_fail.
    - s1; [sc|]. s1; [apply sim_function_encoding|]. s1; [sc|]. s1; [apply sim_synth|]. sc.
    - s1; [sc|]. s1; [sc|]. s1; [sc|]. s1; [apply sim_synth|]. sc.
  Qed.
  Lemma sim_vcall : sim tt_ (demangle_vcall_thunk_node E K) (demangle_vcall_thunk_node E' K').
  Proof. unfold demangle_vcall_thunk_node. s1; [sc|]. s1; [apply sim_chain|]. sc. Qed.

  (** *** String literals *)
  Lemma sim_write (c : bool) x b : ustr x -> textb b -> sim textb (run_w (w_if c (w_str E x)) b) (run_w (w_if c (w_str E' x)) b).
  Proof.
    intros Hx Hb s s' HQ. unfold sat, run_w.
    pose proof (gw_if c _ (gw_str E x Hx) b Hb) as H1. pose proof (gw_if c _ (gw_str E' x Hx) b Hb) as H2.
    assert (He : forall b1 b2, w_if c (w_str E x) b = (b1, Ok tt) -> w_if c (w_str E' x) b = (b2, Ok tt) -> b1 = b2).
    { destruct c; cbn [w_if]; unfold w_str, w_ret; intros b1 b2 G1 G2; [|congruence]. destruct x as [|z x]; [congruence|]. cbv zeta in *. rewrite <- Hgrow in G2.
      destruct (N.ltb_spec (N.of_nat (length (b_bytes b) + length (utf8 (z :: x)))) (e_out E)) as [L1|]; [|discriminate].
      destruct (N.ltb_spec (N.of_nat (length (b_bytes b) + length (utf8 (z :: x)))) (e_out E')) as [L2|]; [|discriminate].
      rewrite part_cap_fits in G1 by (rewrite clip_total; exact L1). rewrite part_cap_fits in G2 by (rewrite clip_total; exact L2).
      rewrite (all_cap_ext E E' Hgrow) in G1. congruence. }
    destruct (w_if c (w_str E x) b) as [b1 [[]|e| |]]; [|left; right; right; rewrite H1; reflexivity|left; left; reflexivity|left; right; left; reflexivity].
    destruct (w_if c (w_str E' x) b) as [b2 [[]|e| |]]; [|right; left; right; right; rewrite H2; reflexivity|right; left; left; reflexivity|right; left; right; left; reflexivity].
    rewrite (He b1 b2 eq_refl eq_refl) in *. right. right. right. exists b2, s, s'. auto.
  Qed.
  Lemma sim_wide fuel : forall len tr b, textb b -> sim textb (wide_loop E fuel len tr b) (wide_loop E' fuel len tr b).
  Proof.
    induction fuel as [|fuel IH]; intros len tr b Hb; cbn [wide_loop]; [sc|]. s1; [sc|]. s1; [sc; assumption|]. s1. s1; [sc|]. s1; [sc|].
    eapply sim_bind; [apply sim_write; [apply esc_ustr|assumption]|]. intros b1 Hb1. apply IH; assumption.
  Qed.
  Lemma sim_narrow fuel : forall acc, sim tt_ (narrow_loop fuel acc) (narrow_loop fuel acc).
  Proof. induction fuel as [|fuel IH]; intros acc; cbn [narrow_loop]; sc. apply IH. Qed.
  Lemma sim_nout bytes sz num : forall count i tr b, textb b -> sim textb (narrow_out E bytes sz num i count tr b) (narrow_out E' bytes sz num i count tr b).
  Proof.
    induction count as [|count IH]; intros i tr b Hb; cbn [narrow_out]; [sc; assumption|]. s1; [sc|].
    eapply sim_bind; [apply sim_write; [apply esc_ustr|assumption]|]. intros b1 Hb1. apply IH; assumption.
  Qed.
  Lemma sim_string : sim tt_ (demangle_string_literal E) (demangle_string_literal E').
  Proof.
    unfold demangle_string_literal. do 4 (s1; [sc|]). dp. s1; [sc|]. s1. s1; [sc|]. s1; [sc|]. s1; [sc|]. s1. s1; [sc|].
    eapply (sim_bind (fun p => textb (fst (fst p)))).
    - s1; cbv zeta.
      + eapply sim_bind; [apply sim_wide, textb_nil|]. intros ob Hb. apply sim_ret. exact Hb.
      + s1; [apply sim_narrow|]. cbv zeta. s1; [sc|]. s1; [sc|]. eapply sim_bind; [apply sim_nout, textb_nil|]. intros ob Hb. apply sim_ret. exact Hb.
    - intros [[ob k] tr] [x [H1x H2x]]. cbn [fst] in H1x. unfold take_text. rewrite H1x, from_utf8_utf8 by exact H2x.
      eapply (sim_bind ustr); [apply sim_ok_or; intros y Hy; injection Hy as <-; exact H2x|]. intros y Hy. apply sim_intern. exact Hy.
  Qed.
  Lemma sim_rtti : sim tt_ (rtti_type_descriptor E K) (rtti_type_descriptor E' K').
  Proof. unfold rtti_type_descriptor. s1; [apply HKt|]. s1; [sc|]. s1. s1; [|sc]. s1; [apply sim_synth_name; us|]. sc. Qed.
  Lemma sim_special_intrinsic : sim tt_ (demangle_special_intrinsic E K) (demangle_special_intrinsic E' K').
  Proof.
    unfold demangle_special_intrinsic. s1; [sc|]. s1; [|sc]. s1; [|sc].
    match goal with k : _ |- _ => destruct k end; first [apply sim_table|apply sim_vcall|apply sim_guard|apply sim_string|apply sim_rtti
      |apply sim_untyped; us|apply sim_rtti_base|apply sim_stub|apply sim_fail].
  Qed.
  Lemma sim_md5 : sim tt_ (demangle_md5_name E) (demangle_md5_name E').
  Proof.
    unfold demangle_md5_name. s1. s1; [sc|]. s1. s1; [sc|]. s1; [sc|]. s1; [sc|]. s1; [sc|]. cbv zeta.
    destruct (split_bytes _ a) as [[md5 r]|] eqn:Hs; [|sc]. apply split_bytes_spec in Hs. destruct H as [Hc _]. rewrite (proj1 Hs) in Hc. apply Forall_app in Hc.
    s1; [apply sim_synth_name, Hc|]. sc.
  Qed.
  Lemma sim_typeinfo : sim tt_ (demangle_typeinfo_name E K) (demangle_typeinfo_name E' K').
  Proof. unfold demangle_typeinfo_name. s1; [sc|]. s1; [apply HKt|]. sc. Qed.
  Lemma sim_parse : sim tt_ (do_parse E K) (do_parse E' K').
  Proof.
    unfold do_parse. s1. s1; [apply sim_typeinfo|]. s1; [apply sim_md5|]. s1; [sc|]. s1; [apply sim_special_intrinsic|]. s1; [sc|]. apply sim_declarator.
  Qed.
End Parse.

Lemma sim_knot E E' : e_nodes E = e_nodes E' -> e_grow E = e_grow E' -> forall fuel,
  sim tt_ (k_parse (knot_of E fuel)) (k_parse (knot_of E' fuel)) /\ (forall m, sim tt_ (k_type (knot_of E fuel) m) (k_type (knot_of E' fuel) m)).
Proof.
  intros HN HG. induction fuel as [|fuel [I1 I2]]; cbn [knot_of k_parse k_type]; [split; intros; apply sim_fuel|].
  split; intros; [apply sim_parse; assumption|apply sim_type; assumption].
Qed.
