(** Operators, constructors, thunks and anonymous namespaces at the level of the API
    (C26, C30, C32). *)
From Verif Require Import Parser Api Utf8 Show Grammar Number Safety Trip NameRefs NumArr.

(** The tables after the given scopes. *)
Definition after_names (cs : list str) : tab := (remembered cs, []).

Lemma names_chain E cs : Forall ident cs -> chain E empty_tab (names_text cs ++ L "@") (rev cs) (after_names cs).
Proof.
  intros H. pose proof (rem_all_spec cs []) as Hr. change (rem_all cs empty_tab = after_names cs) in Hr. rewrite <- Hr.
  apply (chain_names E cs empty_tab (L "@") []); [exact H|apply ch_end].
Qed.

(** ** C26 *)
(** An operator, in any scopes [cs] (innermost first), with any class and signature. *)
Theorem operator_name : forall (E : env) (code op : str) (cs : list str) (f : str) (k : fn_class) (a : adjustment) (sig : option ty) (G' : tab),
  In (code, op) operators -> Forall ident cs -> function (code_limits E) (after_names cs) f k a sig G' ->
  demangles_to E (L "??" ++ code ++ names_text cs ++ L "@" ++ f) (show_function E k a sig (qualified (rev cs ++ [op]))).
Proof.
  intros E code op cs f k a sig G' Ho Hc Hf.
  pose proof (sy_function (code_limits E) empty_tab (L "?" ++ code) (IText op) empty_tab _ _ _ f k a sig G' op
    (us_base _ _ _ _ _ (ub_operator empty_tab code op Ho)) (names_chain _ cs Hc) Hf (it_text _ _ _ _)) as Hs.
  apply symbol_demangles in Hs. rewrite <- !app_assoc in Hs. exact Hs.
Qed.
(** Constructors and destructors print the name of the innermost scope. *)
Theorem structor_name : forall (E : env) (dtor : bool) (c : str) (cs : list str) (f : str) (k : fn_class) (a : adjustment) (sig : option ty) (G' : tab),
  Forall ident (c :: cs) -> function (code_limits E) (after_names (c :: cs)) f k a sig G' ->
  demangles_to E (L "??" ++ (if dtor then L "1" else L "0") ++ names_text (c :: cs) ++ L "@" ++ f)
    (show_function E k a sig (qualified (rev cs ++ [c; (if dtor then L "~" else []) ++ c]))).
Proof.
  intros E dtor c cs f k a sig G' Hc Hf.
  assert (Hu : usym (code_limits E) empty_tab (L "?" ++ (if dtor then L "1" else L "0")) (IStructor dtor []) empty_tab) by (apply us_base; destruct dtor; [apply ub_dtor|apply ub_ctor]).
  pose proof (names_chain (code_limits E) (c :: cs) Hc) as Hn.
  pose proof (it_structor (code_limits E) dtor [] (rev cs) c (match sig with Some (TFun _ _ _ r _ _ _) => r | _ => None end)) as Ht.
  pose proof (sy_function (code_limits E) empty_tab _ _ empty_tab _ (rev (c :: cs)) _ f k a sig G' _ Hu Hn Hf Ht) as Hs.
  apply symbol_demangles in Hs. rewrite <- !app_assoc in Hs. cbn [rev] in Hs. rewrite app_nil_r, <- app_assoc in Hs. exact Hs.
Qed.
(** A class template names its structors by the instantiation. *)
Theorem template_structor_name : forall (E : env) (dtor : bool) (t x : str) (f : str) (k : fn_class) (a : adjustment) (sig : option ty) (G' : tab),
  template (code_limits E) t x -> function (code_limits E) ([x], []) f k a sig G' ->
  demangles_to E (L "??" ++ (if dtor then L "1" else L "0") ++ t ++ L "@" ++ f)
    (show_function E k a sig (qualified [x; (if dtor then L "~" else []) ++ x])).
Proof.
  intros E dtor t x f k a sig G' Hc Hf.
  assert (Hu : usym (code_limits E) empty_tab (L "?" ++ (if dtor then L "1" else L "0")) (IStructor dtor []) empty_tab) by (apply us_base; destruct dtor; [apply ub_dtor|apply ub_ctor]).
  pose proof (ch_cons (code_limits E) empty_tab t x _ (L "@") [] _ (pc_template _ _ _ _ Hc) (ch_end _ _)) as Hn.
  pose proof (it_structor (code_limits E) dtor [] [] x (match sig with Some (TFun _ _ _ r _ _ _) => r | _ => None end)) as Ht.
  pose proof (sy_function (code_limits E) empty_tab _ _ empty_tab _ _ _ f k a sig G' _ Hu Hn Hf Ht) as Hs.
  apply symbol_demangles in Hs. rewrite <- !app_assoc in Hs. rewrite app_nil_r in Hs. exact Hs.
Qed.
(** A conversion function prints its return type. *)
Theorem conversion_name : forall (E : env) (cs : list str) (f : str) (k : fn_class) (a : adjustment) (sig : ty) (r : ty) (G' : tab),
  Forall ident cs -> function (code_limits E) (after_names cs) f k a (Some sig) G' ->
  (exists q cc rq ps v ne, sig = TFun q cc rq (Some r) ps v ne) ->
  demangles_to E (L "??B" ++ names_text cs ++ L "@" ++ f)
    (show_function E k a (Some sig) (qualified (rev cs ++ [L "operator " ++ show E r]))).
Proof.
  intros E cs f k a sig r G' Hc Hf (q & cc & rq & ps & v & ne & ->).
  assert (Hu : usym (code_limits E) empty_tab (L "?B") (IConv []) empty_tab) by (apply us_base, ub_conv).
  pose proof (sy_function (code_limits E) empty_tab _ _ empty_tab _ _ _ f k a _ G' _ Hu (names_chain _ cs Hc) Hf (it_conv _ [] (rev cs) r)) as Hs.
  apply symbol_demangles in Hs. rewrite <- !app_assoc in Hs. exact Hs.
Qed.

(** ["public: void __thiscall name(void)"] and its mangled tail. *)
Lemma void_member E G this cl k a : class_code false cl k a this -> this = true ->
  function E G (cl ++ L "AEXXZ") k a (Some (TFun Q_None (Some Thiscall) None (Some (TPrim Q_None Void)) None false false)) G.
Proof.
  intros H ->. change (L "AEXXZ") with (([] ++ [] ++ [cv_code false false false]) ++ [ch "E"] ++ L "X" ++ L "X" ++ throw_code false).
  change cl with (opt false (L "$$J0") ++ cl) at 1. rewrite <- (app_assoc (opt false (L "$$J0"))).
  eapply (fu_typed E false G cl k a true); [exact H|].
  apply (fn_intro E true G _ Q_None None (ch "E") (Some Thiscall) (L "X") (Some (TPrim Q_None Void)) G (L "X") None false G false).
  - apply (th_quals false false false [] None false false false rf_none).
  - apply cc_known. cbn. auto.
  - apply re_some, rt_plain; [apply (bo_prim _ _ Void)|]. intros r Hr. discriminate.
  - apply pl_void.
Qed.
(** Spelled out, with no flag set. *)
Corollary operator_spelled : forall (E : env) (code op c : str),
  e_flags E = 0%N -> In (code, op) operators -> ident c ->
  demangles_to E (L "??" ++ code ++ c ++ L "@@QAEXXZ") (L "public: void __thiscall " ++ c ++ L "::" ++ op ++ L "(void)").
Proof.
  intros E code op c HE Ho Hc.
  pose proof (operator_name E code op [c] _ _ _ _ _ Ho (Forall_cons _ Hc (Forall_nil _)) (void_member (code_limits E) _ _ _ _ _ (cl_plain false Public false) eq_refl)) as H.
  cbn [names_text map concat] in H. rewrite <- !app_assoc in H. cbn [app rev] in H. destruct E as [fl al gr nn oo]; cbn [e_flags] in HE; subst fl.
  cbn [qualified join] in H. unfold show_function, sp, ends_word in H. cbn in H. rewrite <- ?app_assoc in H. exact H.
Qed.
Lemma ctor_function E G cl : function E G (cl ++ L "AE@XZ") (FnClass (Some Public) false false false) NoAdjustment
    (Some (TFun Q_None (Some Thiscall) None None None false false)) G \/ cl <> L "Q".
Proof.
  destruct (list_eq_dec N.eq_dec cl (L "Q")) as [->|H]; [left|right; exact H].
  change (L "AE@XZ") with (([] ++ [] ++ [cv_code false false false]) ++ [ch "E"] ++ L "@" ++ L "X" ++ throw_code false).
  eapply (fu_typed E false G (L "Q") _ _ true); [apply (cl_plain false Public false)|].
  apply (fn_intro E true G _ Q_None None (ch "E") (Some Thiscall) (L "@") None G (L "X") None false G false).
  - apply (th_quals false false false [] None false false false rf_none).
  - apply cc_known. cbn. auto.
  - apply re_none.
  - apply pl_void.
Qed.
Ltac by_text H :=
  match type of H with demangles_to ?E ?t ?x => match goal with |- demangles_to _ ?t' ?x' =>
    replace t' with t; [replace x' with x; [exact H|]|] end end.
Corollary structor_spelled : forall (E : env) (dtor : bool) (n c : str),
  e_flags E = 0%N -> ident n -> ident c ->
  demangles_to E (L "??" ++ (if dtor then L "1" else L "0") ++ c ++ L "@" ++ n ++ L "@@QAE@XZ")
    (L "public: __thiscall " ++ n ++ L "::" ++ c ++ L "::" ++ (if dtor then L "~" else []) ++ c ++ L "(void)").
Proof.
  intros E dtor n c HE Hn Hc.
  destruct (ctor_function (code_limits E) (after_names [c; n]) (L "Q")) as [Hf|[]]; [|reflexivity].
  pose proof (structor_name E dtor c [n] _ _ _ _ _ (Forall_cons _ Hc (Forall_cons _ Hn (Forall_nil _))) Hf) as H.
  destruct E as [fl al gr nn oo]; cbn [e_flags] in HE; subst fl. by_text H.
  - unfold show_function, sp, ends_word, qualified. destruct dtor; cbn; do 8 (rewrite <- ?app_assoc; cbn [app]); reflexivity.
  - cbn [names_text map concat]. rewrite <- ?app_assoc. reflexivity.
Qed.
Print Assumptions operator_spelled.
Print Assumptions structor_spelled.
Print Assumptions template_structor_name.
Print Assumptions conversion_name.
(** Non-vacuity of the general forms. *)
Example operator_case : In (L "__M", L "operator<=>") operators /\ Forall ident [L "C"; L "ns"] /\
  function (code_limits (env_of 0)) (after_names [L "C"; L "ns"]) (L "QAEXXZ") (FnClass (Some Public) false false false) NoAdjustment
    (Some (TFun Q_None (Some Thiscall) None (Some (TPrim Q_None Void)) None false false)) (after_names [L "C"; L "ns"]).
Proof.
  split; [cbn; tauto|]. split.
  - repeat (constructor; [split; [repeat constructor|split; [cbn; intuition discriminate|split; [reflexivity|discriminate]]]|]). constructor.
  - apply (void_member _ _ true (L "Q")); [apply (cl_plain false Public false)|reflexivity].
Qed.

(** ** C30 *)
(** A this-adjusting thunk: letters ['G'] to ['X'] by access, then the offset. *)
Theorem adjustor_thunk : forall (E : env) (acc : access) (far : bool) (x : str) (cs : list str) (t : str) (z : Z),
  e_flags E = 0%N -> Forall ident (x :: cs) -> signed_number t z ->
  demangles_to E (L "?" ++ names_text (x :: cs) ++ L "@" ++ [class_letter acc 3 far] ++ t ++ L "AEXXZ")
    (L "[thunk]: " ++ access_text acc ++ (match acc with Private => [] | _ => L "virtual " end) ++ L "void __thiscall " ++
     qualified (rev (x :: cs)) ++ L "`adjustor{" ++ dec_N (Z.to_N (z mod 2 ^ 32)) ++ L "}'(void)").
Proof.
  intros E acc far x cs t z HE Hx Ht. inversion Hx as [|? ? H1 H2]; subst.
  pose proof (rem_all_spec (x :: cs) []) as Hr. change (rem_all (x :: cs) ([], [])) with (rem_all cs (remember x empty_tab)) in Hr.
  assert (Hc : chain (code_limits E) (remember x empty_tab) (names_text cs ++ L "@") ([] ++ rev cs) (rem_all cs (remember x empty_tab))) by (apply chain_names; [exact H2|apply ch_end]).
  pose proof (void_member (code_limits E) (rem_all cs (remember x empty_tab)) true _ _ _ (cl_adjustor false acc far t z Ht) eq_refl) as Hf.
  pose proof (sy_function (code_limits E) empty_tab (x ++ L "@") (IText x) _ _ _ _ _ _ _ _ _ x (us_base _ _ _ _ _ (ub_name empty_tab x H1)) Hc Hf (it_text _ _ _ _)) as Hs.
  apply symbol_demangles in Hs. destruct E as [fl al gr nn oo]; cbn [e_flags] in HE; subst fl. by_text Hs.
  - cbn [rev app]. set (nm := qualified _). unfold show_function, sp, ends_word, mod32, adjustment_text.
    repeat match goal with |- context [dec_N ?a] => generalize (dec_N a); intros ? | |- context [dec_Z ?a] => generalize (dec_Z a); intros ? end.
    clearbody nm. destruct acc; cbn; do 8 (rewrite <- ?app_assoc; cbn [app]); reflexivity.
  - cbn [names_text map concat]. rewrite <- !app_assoc. reflexivity.
Qed.
(** Thunks of virtual bases. *)
Theorem vtordisp_thunk : forall (E : env) (acc : access) (far : bool) (x : str) (cs : list str) (t1 t2 : str) (z1 z2 : Z),
  e_flags E = 0%N -> Forall ident (x :: cs) -> signed_number t1 z1 -> signed_number t2 z2 ->
  demangles_to E (L "?" ++ names_text (x :: cs) ++ L "@$" ++ [(ch "0" + 2 * access_index acc + (if far then 1 else 0))%N] ++ t1 ++ t2 ++ L "AEXXZ")
    (L "[thunk]: " ++ access_text acc ++ L "virtual void __thiscall " ++
     qualified (rev (x :: cs)) ++ L "`vtordisp{" ++ dec_Z (wrap32 z1) ++ L ", " ++ dec_N (Z.to_N (z2 mod 2 ^ 32)) ++ L "}'(void)").
Proof.
  intros E acc far x cs t1 t2 z1 z2 HE Hx Ht1 Ht2. inversion Hx as [|? ? H1 H2]; subst.
  assert (Hc : chain (code_limits E) (remember x empty_tab) (names_text cs ++ L "@") ([] ++ rev cs) (rem_all cs (remember x empty_tab))) by (apply chain_names; [exact H2|apply ch_end]).
  pose proof (void_member (code_limits E) (rem_all cs (remember x empty_tab)) true _ _ _ (cl_vtordisp false acc far t1 z1 t2 z2 Ht1 Ht2) eq_refl) as Hf.
  pose proof (sy_function (code_limits E) empty_tab (x ++ L "@") (IText x) _ _ _ _ _ _ _ _ _ x (us_base _ _ _ _ _ (ub_name empty_tab x H1)) Hc Hf (it_text _ _ _ _)) as Hs.
  apply symbol_demangles in Hs. destruct E as [fl al gr nn oo]; cbn [e_flags] in HE; subst fl. by_text Hs.
  - cbn [rev app]. set (nm := qualified _). unfold show_function, sp, ends_word, mod32, adjustment_text.
    repeat match goal with |- context [dec_N ?a] => generalize (dec_N a); intros ? | |- context [dec_Z ?a] => generalize (dec_Z a); intros ? end.
    clearbody nm. destruct acc; cbn; do 8 (rewrite <- ?app_assoc; cbn [app]); reflexivity.
  - cbn [names_text map concat]. rewrite <- !app_assoc. reflexivity.
Qed.
Theorem vtordispex_thunk : forall (E : env) (acc : access) (far : bool) (x : str) (cs : list str) (t1 t2 t3 t4 : str) (z1 z2 z3 z4 : Z),
  e_flags E = 0%N -> Forall ident (x :: cs) -> signed_number t1 z1 -> signed_number t2 z2 -> signed_number t3 z3 -> signed_number t4 z4 ->
  demangles_to E (L "?" ++ names_text (x :: cs) ++ L "@$R" ++ [(ch "0" + 2 * access_index acc + (if far then 1 else 0))%N] ++ t1 ++ t2 ++ t3 ++ t4 ++ L "AEXXZ")
    (L "[thunk]: " ++ access_text acc ++ L "virtual void __thiscall " ++
     qualified (rev (x :: cs)) ++ L "`vtordispex{" ++ dec_Z (wrap32 z1) ++ L ", " ++ dec_Z (wrap32 z2) ++ L ", " ++ dec_Z (wrap32 z3) ++ L ", " ++
     dec_N (Z.to_N (z4 mod 2 ^ 32)) ++ L "}'(void)").
Proof.
  intros E acc far x cs t1 t2 t3 t4 z1 z2 z3 z4 HE Hx Ht1 Ht2 Ht3 Ht4. inversion Hx as [|? ? H1 H2]; subst.
  assert (Hc : chain (code_limits E) (remember x empty_tab) (names_text cs ++ L "@") ([] ++ rev cs) (rem_all cs (remember x empty_tab))) by (apply chain_names; [exact H2|apply ch_end]).
  pose proof (void_member (code_limits E) (rem_all cs (remember x empty_tab)) true _ _ _ (cl_vtordispex false acc far t1 z1 t2 z2 t3 z3 t4 z4 Ht1 Ht2 Ht3 Ht4) eq_refl) as Hf.
  pose proof (sy_function (code_limits E) empty_tab (x ++ L "@") (IText x) _ _ _ _ _ _ _ _ _ x (us_base _ _ _ _ _ (ub_name empty_tab x H1)) Hc Hf (it_text _ _ _ _)) as Hs.
  apply symbol_demangles in Hs. destruct E as [fl al gr nn oo]; cbn [e_flags] in HE; subst fl. by_text Hs.
  - cbn [rev app]. set (nm := qualified _). unfold show_function, sp, ends_word, mod32, adjustment_text.
    repeat match goal with |- context [dec_N ?a] => generalize (dec_N a); intros ? | |- context [dec_Z ?a] => generalize (dec_Z a); intros ? end.
    clearbody nm. destruct acc; cbn; do 8 (rewrite <- ?app_assoc; cbn [app]); reflexivity.
  - cbn [names_text map concat]. rewrite <- !app_assoc. reflexivity.
Qed.
Print Assumptions adjustor_thunk.
Print Assumptions vtordisp_thunk.
Print Assumptions vtordispex_thunk.
(** Non-vacuity: an adjustment of -4, printed modulo [2^32]; [wrap32] is the signed reading. *)
Example thunk_case : signed_number (L "?3") (-4) /\ Z.to_N (-4 mod 2 ^ 32) = 4294967292%N /\ wrap32 (-4) = (-4)%Z /\ wrap32 (2 ^ 31) = (- 2 ^ 31)%Z.
Proof.
  split; [|repeat split; reflexivity]. exists 4%N, true. split; [|split; [reflexivity|reflexivity]]. exists (L "3"). split; [apply (num_digit 3); reflexivity|reflexivity].
Qed.
(** The signed reading modulo [2^32]: congruent, and in the range of a 32-bit integer. *)
Lemma wrap32_spec z : (- 2 ^ 31 <= wrap32 z < 2 ^ 31)%Z /\ ((wrap32 z) mod 2 ^ 32 = z mod 2 ^ 32)%Z.
Proof.
  unfold wrap32. pose proof (Z.mod_pos_bound (z + 2 ^ 31) (2 ^ 32) ltac:(lia)). split; [lia|].
  rewrite Zminus_mod_idemp_l. f_equal. lia.
Qed.

(** ** C32 *)
(** Names [xs], an anonymous namespace with key [k], names [ys], and a scope given by digit [i]:
    the key prints as [`anonymous namespace'], and is one of the remembered names. *)
Theorem anonymous_namespace : forall (E : env) (x : str) (xs : list str) (k : str) (ys : list str),
  Forall ident (x :: xs) -> Forall ident ys -> ustr k -> ~ In (ch "@") k ->
  demangles_to E (L "?" ++ names_text (x :: xs) ++ L "?A" ++ k ++ L "@" ++ names_text ys ++ L "@3HA")
    (int_variable E (rev ys ++ [L "`anonymous namespace'"] ++ rev (x :: xs))).
Proof.
  intros E x xs k ys Hx Hy Hk Hk'. inversion Hx as [|? ? H1 H2]; subst. set (G := remember x empty_tab).
  assert (Hc : chain (code_limits E) G (names_text xs ++ ((L "?A" ++ k ++ L "@") ++ names_text ys ++ L "@"))
     ((rev ys ++ [L "`anonymous namespace'"]) ++ rev xs) (rem_all ys (remember k (rem_all xs G)))).
  { apply chain_names; [exact H2|]. eapply ch_cons; [apply pc_anonymous; assumption|].
    apply (chain_names (code_limits E) ys (remember k (rem_all xs G)) (L "@") []); [exact Hy|apply ch_end]. }
  pose proof (va_plain (code_limits E) (rem_all ys (remember k (rem_all xs G))) (ch "3") None (L "H") (TPrim Q_None Int) _ false false false sc_global (bo_prim _ _ Int) ltac:(discriminate)) as Hv.
  pose proof (sy_variable (code_limits E) empty_tab (x ++ L "@") (IText x) _ _ _ _ _ _ _ _ x (us_base _ _ _ _ _ (ub_name empty_tab x H1)) Hc Hv (it_text _ _ _ _)) as Hs.
  apply symbol_demangles in Hs. cbn [names_text map concat]. rewrite <- !app_assoc in *. cbn [rev]. exact Hs.
Qed.
Theorem anonymous_slot : forall (E : env) (x : str) (xs : list str) (k : str) (ys : list str) (i : nat) (y : str),
  Forall ident (x :: xs) -> Forall ident ys -> ustr k -> ~ In (ch "@") k -> nth_error (remembered (x :: xs ++ k :: ys)) i = Some y ->
  demangles_to E (L "?" ++ names_text (x :: xs) ++ L "?A" ++ k ++ L "@" ++ names_text ys ++ [digit_char i] ++ L "@3HA")
    (int_variable E ([y] ++ rev ys ++ [L "`anonymous namespace'"] ++ rev (x :: xs))).
Proof.
  intros E x xs k ys i y Hx Hy Hk Hk' Hn. inversion Hx as [|? ? H1 H2]; subst. set (G := remember x empty_tab).
  assert (Hi : i < 10). { assert (Hl : i < length (remembered (x :: xs ++ k :: ys))) by (apply nth_error_Some; congruence). unfold remembered in Hl. rewrite firstn_length in Hl. lia. }
  assert (HG : rem_all ys (remember k (rem_all xs G)) = (remembered (x :: xs ++ k :: ys), [])).
  { rewrite <- rem_all_spec. unfold rem_all. cbn [fold_left]. rewrite fold_left_app. reflexivity. }
  assert (Hc : chain (code_limits E) G (names_text xs ++ ((L "?A" ++ k ++ L "@") ++ names_text ys ++ ([digit_char i] ++ L "@")))
     ((([] ++ [y]) ++ rev ys) ++ [L "`anonymous namespace'"] ++ rev xs) (rem_all ys (remember k (rem_all xs G)))).
  { rewrite (app_assoc _ [L "`anonymous namespace'"]). apply chain_names; [exact H2|]. eapply ch_cons; [apply pc_anonymous; assumption|].
    apply chain_names; [exact Hy|]. eapply ch_cons; [|apply ch_end]. apply pc_ref; [exact Hi|]. rewrite HG. exact Hn. }
  pose proof (va_plain (code_limits E) (rem_all ys (remember k (rem_all xs G))) (ch "3") None (L "H") (TPrim Q_None Int) _ false false false sc_global (bo_prim _ _ Int) ltac:(discriminate)) as Hv.
  pose proof (sy_variable (code_limits E) empty_tab (x ++ L "@") (IText x) _ _ _ _ _ _ _ _ x (us_base _ _ _ _ _ (ub_name empty_tab x H1)) Hc Hv (it_text _ _ _ _)) as Hs.
  apply symbol_demangles in Hs. cbn [names_text map concat]. rewrite <- !app_assoc in *. cbn [rev app] in *. rewrite <- ?app_assoc. exact Hs.
Qed.
Print Assumptions anonymous_namespace.
Print Assumptions anonymous_slot.
(** Non-vacuity: [?x@?A0xdeadbeef@ns@1@3HA]: the digit 1 denotes the key. *)
Example anonymous_case : nth_error (remembered (L "x" :: [] ++ L "0xdeadbeef" :: [L "ns"])) 1 = Some (L "0xdeadbeef").
Proof. reflexivity. Qed.
Print Assumptions operator_name.
Print Assumptions structor_name.
Print Assumptions wrap32_spec.
