(** The back-reference tables of template argument lists are their own (C18). *)
From Verif Require Import Parser Api Utf8 Show Grammar BadGrammar Number Safety Trip NameRefs NumArr Members ParamRefs Defects.

(** ** Specification *)
(** The text and the rendering of the instantiation of [t] with arguments of text [a] and renderings [vs]. *)
Definition inst_text (t a : str) : str := L "?$" ++ t ++ L "@" ++ a.
Definition inst_name (t : str) (vs : list str) : str := t ++ L "<" ++ join (L ", ") vs ++ L ">".
(** [a] is a complete argument list, with renderings [vs], of a template named [t]: it is read
    with tables in which there is nothing but the name of the template. *)
Definition arguments (E : env) (t a : str) (vs : list str) : Prop :=
  ident t /\ fits (code_limits E) (inst_name t vs) /\ exists G, targs (code_limits E) ([t], []) a vs G.
(** Class types as template arguments. *)
Definition class_args (ys : list str) : str := concat (map (fun y => L "V" ++ y ++ L "@@") ys).
(** The text of a pointer to a [void] function with the given parameters, up to the end of the parameters. *)
Definition fn_pointer_arg (qs : list (str * ty)) : str := L "P6AX" ++ concat (map fst qs).

Lemma arguments_template E t a vs : arguments E t a vs -> template (code_limits E) (inst_text t a) (inst_name t vs).
Proof.
  intros (Ht & Hf & G & Ha). unfold inst_text. rewrite (app_assoc t). eapply tp_intro; [exact Hf|apply tb_base, ub_name; exact Ht|exact Ha].
Qed.
Lemma rem_app xs ys G : rem_all (xs ++ ys) G = rem_all ys (rem_all xs G).
Proof. apply fold_left_app. Qed.

(** ** Outside after an instantiation: the names from outside and the instantiation, nothing from inside *)
Lemma scoped_table x xs y : rem_all (xs ++ [y]) (remember x empty_tab) = (remembered ((x :: xs) ++ [y]), []).
Proof. apply (rem_all_spec ((x :: xs) ++ [y]) []). Qed.
Theorem outside_after_template : forall (E : env) (x : str) (xs : list str) (t a : str) (vs : list str) (i : nat) (y : str),
  Forall ident (x :: xs) -> arguments E t a vs -> nth_error (remembered ((x :: xs) ++ [inst_name t vs])) i = Some y ->
  demangles_to E (L "?" ++ names_text (x :: xs) ++ inst_text t a ++ [digit_char i] ++ L "@3HA") (int_variable E (y :: inst_name t vs :: rev (x :: xs))).
Proof.
  intros E x xs t a vs i y Hx Ha Hy. inversion Hx as [|? ? H1 H2]; subst.
  assert (Hi : i < 10). { assert (Hl : i < length (remembered ((x :: xs) ++ [inst_name t vs]))) by (apply nth_error_Some; congruence). unfold remembered in Hl. rewrite firstn_length in Hl. lia. }
  set (G := rem_all (xs ++ [inst_name t vs]) (remember x empty_tab)).
  assert (Hc : chain (code_limits E) (remember x empty_tab) (names_text xs ++ inst_text t a ++ [digit_char i] ++ L "@") ((([] ++ [y]) ++ [inst_name t vs]) ++ rev xs) G).
  { apply chain_names; [exact H2|]. eapply ch_cons; [apply pc_template, arguments_template; exact Ha|].
    change (remember (inst_name t vs) (rem_all xs (remember x empty_tab))) with (rem_all [inst_name t vs] (rem_all xs (remember x empty_tab))). rewrite <- rem_app.
    eapply ch_cons; [apply pc_ref; [exact Hi|]|apply ch_end]. rewrite scoped_table. exact Hy. }
  assert (Hv : variable (code_limits E) G (L "3HA") None (TPrim Q_None Int) G).
  { apply (va_plain (code_limits E) _ (ch "3") None (L "H") (TPrim Q_None Int) _ false false false); [constructor|apply (bo_prim _ _ Int)|discriminate]. }
  pose proof (sy_variable (code_limits E) empty_tab (x ++ L "@") (IText x) _ _ _ _ _ _ _ _ x (us_base _ _ _ _ _ (ub_name empty_tab x H1)) Hc Hv (it_text _ _ _ _)) as Hs.
  apply symbol_demangles in Hs. cbn [names_text map concat]. rewrite <- !app_assoc in *. cbn [rev app] in *. rewrite <- ?app_assoc. exact Hs.
Qed.
Theorem outside_after_template_missing : forall (E : env) (x : str) (xs : list str) (t a : str) (vs : list str) (i : nat),
  Forall ident (x :: xs) -> arguments E t a vs -> i < 10 -> nth_error (remembered ((x :: xs) ++ [inst_name t vs])) i = None ->
  rejects_with E (L "?" ++ names_text (x :: xs) ++ inst_text t a ++ [digit_char i]) InvalidBackRef.
Proof.
  intros E x xs t a vs i Hx Ha Hi Hy. inversion Hx as [|? ? H1 H2]; subst. apply defect_rejected.
  cbn [names_text map concat]. rewrite <- (app_assoc (x ++ L "@")). eapply bsy_scope; [apply us_base, ub_name; exact H1|].
  apply bad_chain_names; [exact H2|]. eapply bch_later; [apply pc_template, arguments_template; exact Ha|].
  change (remember (inst_name t vs) (rem_all xs (remember x empty_tab))) with (rem_all [inst_name t vs] (rem_all xs (remember x empty_tab))). rewrite <- rem_app.
  apply bch_here, bpc_ref. exists i. rewrite scoped_table. auto.
Qed.
(** After the instantiation that is the symbol's own name there is nothing to refer to. *)
Theorem outside_after_template_symbol : forall (E : env) (t a : str) (vs : list str) (i : nat),
  arguments E t a vs -> i < 10 -> rejects_with E (L "?" ++ inst_text t a ++ [digit_char i]) InvalidBackRef.
Proof.
  intros E t a vs i (Ht & _ & G & Ha) Hi. apply defect_rejected. unfold inst_text. rewrite (app_assoc t), <- !app_assoc.
  pose proof (us_template (code_limits E) empty_tab (t ++ L "@") (IText t) _ a vs G (tb_base _ _ _ _ (ub_name empty_tab t Ht)) Ha) as Hu.
  replace (L "?$" ++ t ++ L "@" ++ a ++ [digit_char i]) with ((L "?$" ++ (t ++ L "@") ++ a) ++ [digit_char i]) by (rewrite <- !app_assoc; reflexivity).
  eapply bsy_scope; [exact Hu|]. apply bch_here, bpc_ref. exists i. repeat split; auto. destruct i; reflexivity.
Qed.
(** Parameter types: what is inside the instantiation takes no slot outside. *)
Theorem outside_params : forall (E : env) (x : str) (ps : list (str * ty)) (N' : list str) (t a : str) (vs : list str) (i : nat) (y : ty),
  ident x -> spelled (code_limits E) [x] ps N' -> first_is_not "X"%char (concat (map fst ps)) -> arguments E t a vs ->
  let ps' := ps ++ [(L "V" ++ inst_text t a ++ L "@", TTag Q_None TKClass [inst_name t vs])] in
  nth_error (remembered_params ps') i = Some y ->
  demangles_to E (L "?" ++ x ++ L "@@YAX" ++ concat (map fst ps') ++ [digit_char i] ++ L "@Z") (void_function E x (map snd ps' ++ [y])).
Proof.
  intros E x ps N' t a vs i y Hx Hs Hf Ha ps' Hy.
  eapply (param_backref E x ps' (fst (remember (inst_name t vs) (N', [])))); [exact Hx| | |exact Hy].
  - clear Hf Hy. unfold ps'. clear ps'. revert Hs. generalize [x] as N. induction 1 as [N|N t0 y0 N1 ps0 N2 Hb Hs IH]; cbn [app].
    + econstructor; [|constructor]. intros P. apply (bo_tag _ _ TKClass).
      pose proof (qn_intro (code_limits E) (N, P) (inst_text t a) (inst_name t vs) _ (L "@") [] _ (tn_template _ _ _ _ (arguments_template _ _ _ _ Ha)) (ch_end _ _)) as Hq.
      unfold remember in *. cbn [fst snd] in *. destruct (_ || _); exact Hq.
    + econstructor; [exact Hb|exact IH].
  - unfold ps'. rewrite map_app, concat_app. destruct (concat (map fst ps)) as [|c r] eqn:Hc.
    + intros r Hr. discriminate.
    + intros r' Hr. injection Hr as -> _. exact (Hf _ eq_refl).
Qed.

(** ** Inside: the name of the template and what the arguments brought, nothing from outside *)
Lemma bad_class_args E ys : forall G t e, Forall ident ys -> bad_targs E (rem_all ys G) t e -> bad_targs E G (class_args ys ++ t) e.
Proof.
  induction ys as [|y ys IH]; intros G t e Hy H; [exact H|]. inversion Hy; subst. unfold class_args. cbn [map concat]. rewrite <- app_assoc.
  eapply (bta_later _ _ (L "V" ++ y ++ L "@@")); [|apply IH; [assumption|exact H]].
  apply tg_type with (y := TTag Q_None TKClass [y]). replace (L "V" ++ y ++ L "@@") with (tag_code TKClass ++ (y ++ L "@") ++ L "@") by (rewrite <- !app_assoc; reflexivity).
  apply (bo_tag _ _ TKClass). apply (qn_intro _ _ (y ++ L "@") y (remember y G) (L "@") []); [apply tn_name; assumption|apply ch_end].
Qed.
Lemma good_class_args E ys : forall G t xs G', Forall ident ys -> targs E (rem_all ys G) t xs G' ->
  targs E G (class_args ys ++ t) (map (fun y => show E (TTag Q_None TKClass [y])) ys ++ xs) G'.
Proof.
  induction ys as [|y ys IH]; intros G t xs G' Hy H; [exact H|]. inversion Hy; subst. unfold class_args. cbn [map concat app]. rewrite <- app_assoc.
  eapply (ta_cons _ _ (L "V" ++ y ++ L "@@")); [|apply IH; [assumption|exact H]].
  apply tg_type. replace (L "V" ++ y ++ L "@@") with (tag_code TKClass ++ (y ++ L "@") ++ L "@") by (rewrite <- !app_assoc; reflexivity).
  apply (bo_tag _ _ TKClass). apply (qn_intro _ _ (y ++ L "@") y (remember y G) (L "@") []); [apply tn_name; assumption|apply ch_end].
Qed.
(** Whatever the outer names are. *)
Theorem inside_missing : forall (E : env) (x : str) (xs : list str) (t : str) (ys : list str) (i : nat),
  Forall ident (x :: xs) -> Forall ident (t :: ys) -> i < 10 -> nth_error (remembered (t :: ys)) i = None ->
  rejects_with E (L "?" ++ names_text (x :: xs) ++ inst_text t (class_args ys ++ L "V" ++ [digit_char i])) InvalidBackRef.
Proof.
  intros E x xs t ys i Hx Ht Hi Hn. inversion Hx as [|? ? H1 H2]; inversion Ht as [|? ? H3 H4]; subst. apply defect_rejected.
  cbn [names_text map concat]. rewrite <- (app_assoc (x ++ L "@")). eapply bsy_scope; [apply us_base, ub_name; exact H1|].
  apply bad_chain_names; [exact H2|]. apply bch_here, bpc_template, btp_inst. unfold inst_text. rewrite (app_assoc t).
  eapply bti_args; [apply ub_name; exact H3|]. apply bad_class_args; [exact H4|]. apply bta_here, btg_type, (bbo_tag _ _ TKClass), bqn_name, btn_ref.
  exists i. rewrite names_table. auto.
Qed.
Theorem inside_backref : forall (E : env) (x : str) (xs : list str) (t : str) (ys : list str) (i : nat) (y : str),
  Forall ident (x :: xs) -> Forall ident (t :: ys) -> nth_error (remembered (t :: ys)) i = Some y ->
  let vs := map (fun y => show E (TTag Q_None TKClass [y])) (ys ++ [y]) in
  fits (code_limits E) (inst_name t vs) ->
  demangles_to E (L "?" ++ names_text (x :: xs) ++ inst_text t (class_args ys ++ L "V" ++ [digit_char i] ++ L "@@") ++ L "@3HA")
    (int_variable E (inst_name t vs :: rev (x :: xs))).
Proof.
  intros E x xs t ys i y Hx Ht Hy vs Hf. inversion Hx as [|? ? H1 H2]; inversion Ht as [|? ? H3 H4]; subst.
  assert (Hi : i < 10). { assert (Hl : i < length (remembered (t :: ys))) by (apply nth_error_Some; congruence). unfold remembered in Hl. rewrite firstn_length in Hl. lia. }
  assert (Ha : arguments E t (class_args ys ++ L "V" ++ [digit_char i] ++ L "@@") vs).
  { split; [exact H3|]. split; [exact Hf|]. eexists. unfold vs. rewrite map_app. apply (good_class_args (code_limits E)); [exact H4|].
    assert (Ht' : rem_all ys ([t], []) = (remembered (t :: ys), [])) by (apply (rem_all_spec (t :: ys) [])). rewrite Ht'.
    replace (L "V" ++ [digit_char i] ++ L "@@") with ((L "V" ++ [digit_char i] ++ L "@") ++ L "@") by reflexivity.
    eapply ta_cons; [|apply ta_end]. apply (tg_type (code_limits E) _ _ (TTag Q_None TKClass [y])), (bo_tag _ _ TKClass). apply (qn_intro _ _ [digit_char i] y (remembered (t :: ys), []) (L "@") []); [apply tn_ref; [exact Hi|exact Hy]|apply ch_end]. }
  set (G := rem_all (xs ++ [inst_name t vs]) (remember x empty_tab)).
  assert (Hc : chain (code_limits E) (remember x empty_tab) (names_text xs ++ inst_text t (class_args ys ++ L "V" ++ [digit_char i] ++ L "@@") ++ L "@") (([] ++ [inst_name t vs]) ++ rev xs) G).
  { apply chain_names; [exact H2|]. eapply ch_cons; [apply pc_template, arguments_template; exact Ha|].
    change (remember (inst_name t vs) (rem_all xs (remember x empty_tab))) with (rem_all [inst_name t vs] (rem_all xs (remember x empty_tab))). rewrite <- rem_app. apply ch_end. }
  assert (Hv : variable (code_limits E) G (L "3HA") None (TPrim Q_None Int) G).
  { apply (va_plain (code_limits E) _ (ch "3") None (L "H") (TPrim Q_None Int) _ false false false); [constructor|apply (bo_prim _ _ Int)|discriminate]. }
  pose proof (sy_variable (code_limits E) empty_tab (x ++ L "@") (IText x) _ _ _ _ _ _ _ _ x (us_base _ _ _ _ _ (ub_name empty_tab x H1)) Hc Hv (it_text _ _ _ _)) as Hs.
  apply symbol_demangles in Hs. cbn [names_text map concat]. rewrite <- !app_assoc in *. cbn [rev app] in *. rewrite <- ?app_assoc. exact Hs.
Qed.
(** Whatever the outer parameters are. *)
Theorem inside_params_missing : forall (E : env) (x : str) (ps : list (str * ty)) (N' : list str) (t : str) (qs : list (str * ty)) (M' : list str) (i : nat),
  ident x -> spelled (code_limits E) [x] ps N' -> first_is_not "X"%char (concat (map fst ps)) ->
  ident t -> spelled (code_limits E) [t] qs M' -> first_is_not "X"%char (concat (map fst qs)) ->
  i < 10 -> nth_error (remembered_params qs) i = None ->
  rejects_with E (L "?" ++ x ++ L "@@YAX" ++ concat (map fst ps) ++ L "V" ++ inst_text t (fn_pointer_arg qs ++ [digit_char i])) InvalidFunctionParameterList.
Proof.
  intros E x ps N' t qs M' i Hx Hs Hf Ht Hq Hg Hi Hn. apply bad_void_function; [exact Hx| |].
  - eapply bad_spelled_params; [exact Hs|]. apply bps_here, (bbo_tag _ _ TKClass), bqn_name, btn_template, btp_inst.
    unfold inst_text. rewrite (app_assoc t). eapply bti_args; [apply ub_name; exact Ht|]. apply bta_here, btg_type.
    unfold fn_pointer_arg. rewrite <- app_assoc. change (L "P6AX" ++ ?y) with (L "P" ++ L "6" ++ (L "AX" ++ y)).
    apply (bbo_fn_pointer _ _ (L "P") Q_None APointer); [exact (pk_pointer false false)|].
    eapply (bfn_params _ _ _ []); [apply th_none|apply (cc_known _ Cdecl); cbn; auto|apply re_some, rt_plain; [apply (bo_prim _ _ Void)|intros r Hr; discriminate]| |].
    + assert (Ha : add_params qs [] = remembered_params qs) by (rewrite add_params_spec by (cbn; lia); reflexivity).
      apply (bad_spelled_params _ [t] qs M' Hq []). rewrite Ha. apply bps_ref; assumption.
    + intros r Hr. destruct (concat (map fst qs)) as [|c r0]; [|injection Hr as -> _; exact (Hg _ eq_refl)].
      assert (Hd : digit_char i = ch "X") by (injection Hr; auto). revert Hd. unfold digit_char. change (ch "0") with 48%N. change (ch "X") with 88%N. lia.
  - intros r Hr. destruct (concat (map fst ps)) as [|c r0]; [discriminate|]. injection Hr as -> _. exact (Hf _ eq_refl).
Qed.
Print Assumptions outside_after_template.
Print Assumptions outside_after_template_missing.
Print Assumptions outside_after_template_symbol.
Print Assumptions outside_params.
Print Assumptions inside_missing.
Print Assumptions inside_backref.
Print Assumptions inside_params_missing.

(** Non-vacuity: [ns::t<class C>] brings one name to the outside, not [C]. *)
Lemma ident_intro x : ustr x -> ~ In (ch "@") x -> match x with c :: _ => is_digit c = false /\ c <> ch "?" | [] => False end -> ident x.
Proof. intros H1 H2 H3. split; [exact H1|]. split; [exact H2|exact H3]. Qed.
Ltac an_ident := apply ident_intro; [repeat constructor|cbn; intuition discriminate|split; [reflexivity|discriminate]].
Example arguments_case : arguments (env_of 0) (L "t") (class_args [L "C"] ++ L "@") [L "class C"] /\
  nth_error (remembered [L "x"; inst_name (L "t") [L "class C"]]) 1 = Some (L "t<class C>") /\ nth_error (remembered [L "x"; inst_name (L "t") [L "class C"]]) 2 = None.
Proof.
  split; [|split; reflexivity]. split; [an_ident|]. split; [reflexivity|]. eexists.
  apply (good_class_args (code_limits (env_of 0)) [L "C"] ([L "t"], []) (L "@") []); [constructor; [an_ident|constructor]|apply ta_end].
Qed.
(** Inside, with the outer names [x] and [y], digit 1 denotes nothing until an argument has a name. *)
Example inside_case : nth_error (remembered [L "t"]) 1 = None /\ nth_error (remembered [L "t"; L "C"]) 1 = Some (L "C") /\ Forall ident [L "x"; L "y"].
Proof. split; [reflexivity|]. split; [reflexivity|]. constructor; [an_ident|constructor; [an_ident|constructor]]. Qed.
