(** Parameter back-references at the level of the API (C17). *)
From Verif Require Import Parser Api Utf8 Show Grammar Number Safety Trip NameRefs NumArr Members.

(** ** Specification *)
(** The types a digit may refer to after the given parameters (text and type): those spelled
    with more than one character, in order, at most ten. *)
Definition remembered_params (ps : list (str * ty)) : list ty :=
  firstn 10 (map snd (filter (fun p => 1 <? length (fst p)) ps)).
(** [spelled E G ps G']: each text spells its type, starting from tables [G].  (The types do not
    themselves have parameters, which would be remembered too.) *)
Inductive spelled (E : env) : list str -> list (str * ty) -> list str -> Prop :=
| sp_nil N : spelled E N [] N
| sp_cons N t y N1 ps N2 : (forall P, body E (N, P) t y (N1, P)) -> spelled E N1 ps N2 -> spelled E N ((t, y) :: ps) N2.
(** [void x(types)] *)
Definition void_function (E : env) (x : str) (ys : list ty) : str :=
  show_function E (FnClass None false false false) NoAdjustment
    (Some (TFun Q_None (Some Cdecl) None (Some (TPrim Q_None Void)) (Some ys) false false)) x.

Section Params.
  Variable E : env.
  Lemma body_nonempty G t y G' : body E G t y G' -> t <> [].
  Proof.
    intros H. destruct H; try discriminate; try (destruct k; discriminate); destruct H; discriminate.
  Qed.
  Lemma body_letter G c y G' : body E G [c] y G' -> length [c] = 1.
  Proof. reflexivity. Qed.
  Fixpoint add_params (ps : list (str * ty)) (P : list ty) : list ty :=
    match ps with
    | [] => P
    | (t, y) :: ps => add_params ps (if 1 <? length t then if length P <? 10 then P ++ [y] else P else P)
    end.
  Lemma add_params_spec ps : forall P, length P <= 10 ->
    add_params ps P = firstn 10 (P ++ map snd (filter (fun p => 1 <? length (fst p)) ps)).
  Proof.
    induction ps as [|[t y] ps IH]; intros P HP; cbn [add_params filter map].
    - rewrite app_nil_r, firstn_all2 by exact HP. reflexivity.
    - cbn [fst]. destruct (1 <? length t); [|apply IH; exact HP]. cbn [map snd]. destruct (Nat.ltb_spec (length P) 10) as [Hl|Hl].
      + rewrite IH by (rewrite app_length; cbn; lia). rewrite <- app_assoc. reflexivity.
      + rewrite IH by exact HP. rewrite !firstn_app. replace (10 - length P) with 0 by lia. rewrite !firstn_O. reflexivity.
  Qed.
  Lemma spelled_params N ps N' : spelled E N ps N' -> forall P t ys G2, params E (N', add_params ps P) t ys G2 ->
    params E (N, P) (concat (map fst ps) ++ t) (map snd ps ++ ys) G2.
  Proof.
    induction 1 as [N|N t y N1 ps N2 Hb Hs IH]; intros P t' ys G2 H; cbn [map concat app]; [exact H|]. cbn [fst snd] in *. rewrite <- app_assoc.
    eapply ps_cons; [|apply IH; exact H]. cbn [add_params].
    pose proof (body_nonempty _ _ _ _ (Hb P)) as Hn. destruct (Nat.ltb_spec 1 (length t)) as [Hl|Hl].
    - pose proof (pa_long E _ _ _ _ (Hb P) Hl) as Hp. unfold remember_param in Hp. cbn [fst snd] in Hp. destruct (length P <? 10); exact Hp.
    - apply pa_short; [apply Hb|]. destruct t; [congruence|]. cbn in *. lia.
  Qed.
End Params.

Lemma void_function_demangles E x t ys G' : ident x -> params (code_limits E) (remembered [x], []) t ys G' -> first_is_not "X"%char t ->
  demangles_to E (L "?" ++ x ++ L "@@YAX" ++ t ++ L "@Z") (void_function E x ys).
Proof.
  intros Hx Hp Hf.
  assert (Hfn : function (code_limits E) (remembered [x], []) (L "Y" ++ (L "AX" ++ t ++ L "@Z")) (FnClass None false false false) NoAdjustment
    (Some (TFun Q_None (Some Cdecl) None (Some (TPrim Q_None Void)) (Some ys) false false)) G').
  { apply (fu_typed _ false _ (L "Y") _ _ false); [apply (cl_global false false)|].
    replace (L "AX" ++ t ++ L "@Z") with ([] ++ [ch "A"] ++ L "X" ++ (t ++ L "@") ++ throw_code false) by (rewrite <- !app_assoc; reflexivity).
    eapply fn_intro; [apply th_none|apply (cc_known _ Cdecl); cbn; auto|apply re_some, rt_plain; [apply (bo_prim _ _ Void)|intros r Hr; discriminate]|].
    apply pl_fixed; assumption. }
  pose proof (sy_function (code_limits E) empty_tab (x ++ L "@") (IText x) _ (L "@") [] _ _ _ _ _ _ x (us_base _ _ _ _ _ (ub_name empty_tab x Hx)) (ch_end _ _) Hfn (it_text _ _ _ _)) as Hs.
  apply symbol_demangles in Hs. rewrite <- !app_assoc in Hs. exact Hs.
Qed.
(** ** C17: a digit denotes the remembered parameter type *)
Theorem param_backref : forall (E : env) (x : str) (ps : list (str * ty)) (N' : list str) (i : nat) (y : ty),
  ident x -> spelled (code_limits E) [x] ps N' -> first_is_not "X"%char (concat (map fst ps)) -> nth_error (remembered_params ps) i = Some y ->
  demangles_to E (L "?" ++ x ++ L "@@YAX" ++ concat (map fst ps) ++ [digit_char i] ++ L "@Z") (void_function E x (map snd ps ++ [y])).
Proof.
  intros E x ps N' i y Hx Hs Hf Hn.
  assert (Hi : i < 10). { assert (Hl : i < length (remembered_params ps)) by (apply nth_error_Some; congruence). unfold remembered_params in Hl. rewrite firstn_length in Hl. lia. }
  assert (Ha : add_params ps [] = remembered_params ps) by (rewrite add_params_spec by (cbn; lia); reflexivity).
  assert (Hp : params (code_limits E) ([x], []) (concat (map fst ps) ++ [digit_char i]) (map snd ps ++ [y]) (N', remembered_params ps)).
  { eapply spelled_params; [exact Hs|]. rewrite Ha. apply (ps_cons _ _ [digit_char i] y (N', remembered_params ps) [] []); [apply pa_ref; assumption|apply ps_nil]. }
  eapply void_function_demangles in Hp; [|exact Hx|].
  - rewrite <- app_assoc in Hp. exact Hp.
  - destruct ps as [|[t0 y0] ps]; [destruct i; discriminate|]. inversion Hs as [|? ? ? ? ? ? Hb]; subst. pose proof (body_nonempty _ _ _ _ _ (Hb [])) as Hne.
    intros r Hr. cbn [map fst concat] in *. destruct t0 as [|c t0]; [congruence|]. injection Hr as -> _. exact (Hf _ eq_refl).
Qed.
Print Assumptions param_backref.
(** Non-vacuity: [void f(int *, int, class C, ..)]; the [int] takes no slot, so digit 1 is [class C]. *)
Example param_backref_case : exists N',
  spelled (code_limits (env_of 0)) [L "f"] [(L "PAH", TPtr Q_None APointer None (TPrim Q_None Int)); (L "H", TPrim Q_None Int); (L "VC@@", TTag Q_None TKClass [L "C"])] N' /\
  nth_error (remembered_params [(L "PAH", TPtr Q_None APointer None (TPrim Q_None Int)); (L "H", TPrim Q_None Int); (L "VC@@", TTag Q_None TKClass [L "C"])]) 1
    = Some (TTag Q_None TKClass [L "C"]).
Proof.
  exists [L "f"; L "C"]. split; [|reflexivity]. econstructor; [|econstructor; [|econstructor; [|constructor]]].
  - intros P. apply (bo_pointer _ _ (L "P") Q_None APointer false false false (L "AH") (TPrim Q_None Int) _ (pk_pointer false false)).
    apply (mt_intro _ false false false ([L "f"], P) (L "H") (TPrim Q_None Int)). apply (bo_prim _ _ Int).
  - intros P. apply (bo_prim _ _ Int).
  - intros P. apply (bo_tag _ _ TKClass (L "C@@") [L "C"]). apply (qn_intro _ _ (L "C@") (L "C") (remember (L "C") ([L "f"], P)) (L "@") []); [|apply ch_end].
    apply (tn_name _ _ (L "C")). split; [repeat constructor|]. split; [cbn; intuition discriminate|split; [reflexivity|discriminate]].
Qed.
