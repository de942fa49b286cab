(** Defects are reported with the right error, at the level of the API (C13, C16, C17, C18, C31). *)
From Verif Require Import Parser Api Utf8 Show Den Emit Grammar BadGrammar Lex Step Number Pend ReadAt Round Safety Short Trip NameRefs NumArr Members ParamRefs Bad.

(** [txt], followed by anything, is rejected with [e]; only if [txt] has more than 1024 characters,
    and the whole text more than 1638, may it exceed the node budget instead. *)
Definition rejects_with (E : env) (txt : str) (e : error) : Prop :=
  forall rest, rust_str (txt ++ rest) ->
    demangle E (txt ++ rest) = Err e \/ (1024 < length txt /\ 1638 < length (txt ++ rest) /\ demangle E (txt ++ rest) = Err MaliciousInput).

Theorem defect_rejected : forall (E : env) (txt : str) (e : error),
  bad_symbol (code_limits E) empty_tab txt e -> rejects_with E txt e.
Proof.
  intros E txt e H rest Hr. pose proof (bad_all (code_limits E) (2 * length txt)) as R. do 15 apply proj2 in R. apply R in H. destruct H as [_ H].
  specialize (H (S (length (txt ++ rest))) rest [] [] [] []). unfold fails, wp in H.
  change (k_parse (knot_of (code_limits E) (S (length (txt ++ rest)))) (at_ (txt ++ rest) [] [] [])) with (parse (code_limits E) (txt ++ rest)) in H.
  assert (Hx : length txt <= S (length (txt ++ rest))) by (rewrite app_length; lia).
  specialize (H Hx (ctx_start _) ltac:(cbn [length]; lia)). pose proof (short_never_malicious E (txt ++ rest)) as Hsh. unfold demangle, demangle_with, demangle_into_with in *.
  destruct (parse (code_limits E) (txt ++ rest)) as [[h s]|e'| |] eqn:He; try contradiction. destruct H as [->|[-> Hp]]; [left; reflexivity|right].
  cbn [e_nodes code_limits] in Hp. change max_nodes with 2048%N in Hp. split; [lia|]. split; [|reflexivity].
  destruct (Nat.le_gt_cases (length (txt ++ rest)) 1638) as [Hs|Hs]; [|exact Hs]. exfalso. apply (Hsh Hs). reflexivity.
Qed.
Print Assumptions defect_rejected.

Lemma own_name E x t e : ident x -> bad_variable (code_limits E) (remembered [x], []) t e -> rejects_with E (L "?" ++ x ++ L "@@" ++ t) e.
Proof.
  intros Hx Hb. apply defect_rejected.
  pose proof (bsy_variable (code_limits E) empty_tab (x ++ L "@") (IText x) _ (L "@") [] _ None x t e (us_base _ _ _ _ _ (ub_name empty_tab x Hx)) (ch_end _ _) (it_text _ _ _ _) Hb) as H.
  rewrite <- !app_assoc in H. exact H.
Qed.

(** ** C13: arrays *)
Theorem array_bad_rank : forall (E : env) (x t : str) (v : N) (neg : bool),
  ident x -> signed_text t v neg -> neg = true \/ v = 0%N -> rejects_with E (L "?" ++ x ++ L "@@3Y" ++ t) InvalidArrayType.
Proof.
  intros E x t v neg Hx Ht Hn. change (L "@@3Y" ++ t) with (L "@@" ++ L "3" ++ (L "Y" ++ t)). apply own_name; [exact Hx|].
  apply (bva_type _ _ (ch "3") None); [constructor|]. eapply bbo_rank; eassumption.
Qed.
(** After any number of dimensions, less than the rank promises, a negative one. *)
Theorem array_negative_dimension : forall (E : env) (x rt dt t : str) (r v : N) (ds : list N),
  ident x -> num_text rt r -> dims dt ds -> (N.of_nat (length ds) < r)%N -> signed_text t v true ->
  rejects_with E (L "?" ++ x ++ L "@@3Y" ++ rt ++ dt ++ t) InvalidArrayType.
Proof.
  intros E x rt dt t r v ds Hx Hr Hd Hl Ht. change (L "@@3Y" ++ ?y) with (L "@@" ++ L "3" ++ (L "Y" ++ y)). apply own_name; [exact Hx|].
  apply (bva_type _ _ (ch "3") None); [constructor|]. eapply bbo_dim; eassumption.
Qed.
Print Assumptions array_bad_rank.
Print Assumptions array_negative_dimension.
(** Non-vacuity: rank -1; rank 2 with dimensions 3 and -1. *)
Example array_bad_rank_case : signed_text (L "?0") 1 true /\ signed_text (L "A@") 0 false.
Proof. split; [exists (L "0"); split; [apply (num_digit 0); lia|reflexivity]|exists (L "A@"); split; [apply (num_letters (L "A")); repeat constructor; cbn; discriminate|reflexivity]]. Qed.
Example array_negative_dimension_case : num_text (L "1") 2 /\ dims (L "2") [3%N] /\ signed_text (L "?0") 1 true.
Proof.
  split; [apply (num_digit 1); lia|]. split; [|exists (L "0"); split; [apply (num_digit 0); lia|reflexivity]].
  apply (di_cons (L "2") 3 [] []); [apply (num_digit 2); lia|constructor].
Qed.

(** ** C16: a digit that denotes no name *)
Section Chains.
  Variable E : env.
  Lemma bad_chain_names xs : forall G t e, Forall ident xs -> bad_chain E (rem_all xs G) t e -> bad_chain E G (names_text xs ++ t) e.
  Proof.
    induction xs as [|x xs IH]; intros G t e Hx H; [exact H|]. inversion Hx; subst. cbn [names_text map concat]. rewrite <- (app_assoc (x ++ L "@")).
    eapply bch_later; [apply pc_name; assumption|]. apply IH; [assumption|exact H].
  Qed.
End Chains.
Lemma names_table x xs : rem_all xs (remember x empty_tab) = (remembered (x :: xs), []).
Proof. apply (rem_all_spec (x :: xs) []). Qed.

Theorem name_backref_missing : forall (E : env) (xs : list str) (i : nat),
  Forall ident xs -> i < 10 -> nth_error (remembered xs) i = None -> rejects_with E (L "?" ++ names_text xs ++ [digit_char i]) InvalidBackRef.
Proof.
  intros E [|x xs] i Hx Hi Hn; apply defect_rejected.
  - apply bsy_name, bus_ref. exists i. auto.
  - inversion Hx as [|? ? H1 H2]; subst. cbn [names_text map concat]. rewrite <- (app_assoc (x ++ L "@")).
    eapply bsy_scope; [apply us_base, ub_name; exact H1|]. apply bad_chain_names; [exact H2|]. apply bch_here, bpc_ref. exists i.
    rewrite names_table. auto.
Qed.
Theorem type_name_backref_missing : forall (E : env) (x : str) (xs : list str) (i : nat),
  Forall ident (x :: xs) -> i < 10 -> nth_error (remembered (x :: xs)) i = None ->
  rejects_with E (L "?" ++ names_text (x :: xs) ++ L "@3V" ++ [digit_char i]) InvalidBackRef.
Proof.
  intros E x xs i Hx Hi Hn. inversion Hx as [|? ? H1 H2]; subst. apply defect_rejected.
  assert (Hc : chain (code_limits E) (remember x empty_tab) (names_text xs ++ L "@") ([] ++ rev xs) (rem_all xs (remember x empty_tab))).
  { apply chain_names; [exact H2|]. apply ch_end. }
  rewrite names_table in Hc.
  pose proof (bsy_variable (code_limits E) empty_tab (x ++ L "@") (IText x) _ _ _ _ None x (L "3" ++ L "V" ++ [digit_char i]) InvalidBackRef (us_base _ _ _ _ _ (ub_name empty_tab x H1)) Hc (it_text _ _ _ _)) as H.
  cbn [names_text map concat]. rewrite <- !app_assoc in *. apply H. apply (bva_type _ _ (ch "3") None); [constructor|].
  apply (bbo_tag _ _ TKClass). apply bqn_name, btn_ref. exists i. auto.
Qed.
Print Assumptions name_backref_missing.
Print Assumptions type_name_backref_missing.
(** Non-vacuity: of [x::x::ns], digit 2 denotes nothing. *)
Example name_backref_missing_case : nth_error (remembered [L "x"; L "x"; L "ns"]) 2 = None.
Proof. reflexivity. Qed.

(** ** C17: a digit that denotes no parameter type *)
Lemma bad_spelled_params E N ps N' : spelled E N ps N' -> forall P t e, bad_params E (N', add_params ps P) t e ->
  bad_params E (N, P) (concat (map fst ps) ++ t) e.
Proof.
  induction 1 as [N|N t y N1 ps N2 Hb Hs IH]; intros P t' e H; cbn [map concat app]; [exact H|]. cbn [fst snd] in *. rewrite <- app_assoc.
  eapply bps_later; [|apply IH; exact H]. cbn [add_params].
  pose proof (body_nonempty _ _ _ _ _ (Hb P)) as Hn. destruct (Nat.ltb_spec 1 (length t)) as [Hl|Hl].
  - pose proof (pa_long E _ _ _ _ (Hb P) Hl) as Hp. unfold remember_param in Hp. cbn [fst snd] in Hp. destruct (length P <? 10); exact Hp.
  - apply pa_short; [apply Hb|]. destruct t; [congruence|]. cbn in *. lia.
Qed.
Lemma bad_void_function E x t e : ident x -> bad_params (code_limits E) (remembered [x], []) t e -> first_is_not "X"%char t ->
  rejects_with E (L "?" ++ x ++ L "@@YAX" ++ t) e.
Proof.
  intros Hx Hp Hf.
  assert (Hfn : bad_function (code_limits E) (remembered [x], []) (L "Y" ++ (L "AX" ++ t)) e).
  { apply (bfu_typed _ false _ (L "Y") (FnClass None false false false) NoAdjustment false); [apply (cl_global false false)|].
    eapply (bfn_params _ _ _ []); [apply th_none|apply (cc_known _ Cdecl); cbn; auto|apply re_some, rt_plain; [apply (bo_prim _ _ Void)|intros r Hr; discriminate]|exact Hp|exact Hf]. }
  pose proof (bsy_function (code_limits E) empty_tab (x ++ L "@") (IText x) _ (L "@") [] _ None x _ e (us_base _ _ _ _ _ (ub_name empty_tab x Hx)) (ch_end _ _) (it_text _ _ _ _) Hfn) as Hs.
  apply defect_rejected in Hs. rewrite <- !app_assoc in Hs. exact Hs.
Qed.
Theorem param_backref_missing : forall (E : env) (x : str) (ps : list (str * ty)) (N' : list str) (i : nat),
  ident x -> spelled (code_limits E) [x] ps N' -> first_is_not "X"%char (concat (map fst ps)) -> i < 10 -> nth_error (remembered_params ps) i = None ->
  rejects_with E (L "?" ++ x ++ L "@@YAX" ++ concat (map fst ps) ++ [digit_char i]) InvalidFunctionParameterList.
Proof.
  intros E x ps N' i Hx Hs Hf Hi Hn.
  assert (Ha : add_params ps [] = remembered_params ps) by (rewrite add_params_spec by (cbn; lia); reflexivity).
  apply bad_void_function; [exact Hx| |].
  - eapply bad_spelled_params; [exact Hs|]. rewrite Ha. apply bps_ref; assumption.
  - destruct ps as [|[t0 y0] ps].
    + intros r Hr. assert (Hd : digit_char i = ch "X") by (injection Hr; auto). revert Hd. unfold digit_char. change (ch "0") with 48%N. change (ch "X") with 88%N. lia.
    + inversion Hs as [|? ? ? ? ? ? Hb]; subst. pose proof (body_nonempty _ _ _ _ _ (Hb [])) as Hne.
      intros r Hr. cbn [map fst concat] in *. destruct t0 as [|c t0]; [congruence|]. injection Hr as -> _. exact (Hf _ eq_refl).
Qed.
Print Assumptions param_backref_missing.
(** Non-vacuity: in [void f(int, ..)] the [int] takes no slot, so digit 0 denotes nothing. *)
Example param_backref_missing_case : spelled (code_limits (env_of 0)) [L "f"] [(L "H", TPrim Q_None Int)] [L "f"] /\
  nth_error (remembered_params [(L "H", TPrim Q_None Int)]) 0 = None.
Proof. split; [|reflexivity]. econstructor; [intros P; apply (bo_prim _ _ Int)|constructor]. Qed.
