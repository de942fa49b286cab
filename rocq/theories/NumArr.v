(** Numbers and array types at the level of the API (C12, C13). *)
From Verif Require Import Parser Api Utf8 Show Grammar Number Safety Trip NameRefs.

(** ** Specification *)
(** The number a string of decimal digits denotes. *)
Fixpoint dec_value (acc : N) (l : str) : N :=
  match l with [] => acc | c :: l => dec_value (acc * 10 + (c - ch "0"))%N l end.

(** [dec_N] is the decimal form: digits only, the right value, no superfluous zero. *)
Lemma dec_value_app a l m : dec_value a (l ++ m) = dec_value (dec_value a l) m.
Proof. revert a. induction l; intros; cbn; auto. Qed.
Lemma dec_loop_spec fuel : forall n acc, (n < 10 ^ N.of_nat fuel)%N ->
  exists l, dec_loop fuel n acc = l ++ acc /\ dec_value 0 l = n /\ (n <> 0%N -> forall r, l <> ch "0" :: r).
Proof.
  induction fuel as [|fuel IH]; intros n acc Hn; cbn [dec_loop].
  - exists []. cbn in Hn. split; [reflexivity|]. split; [cbn; lia|]. discriminate.
  - rewrite Nat2N.inj_succ, N.pow_succ_r' in Hn. pose proof (N.mod_lt n 10 ltac:(lia)). pose proof (N.div_mod n 10 ltac:(lia)) as Hdm.
    destruct (N.ltb_spec n 10) as [Hlt|Hge].
    + exists [(ch "0" + n mod 10)%N]. split; [reflexivity|]. rewrite (N.mod_small n 10 Hlt). cbn [dec_value]. change (ch "0") with 48%N. split; [lia|].
      intros Hz r Hr. injection Hr as Hr _. revert Hr. change (48 + n <> 48)%N. lia.
    + assert (Hd : (n / 10 < 10 ^ N.of_nat fuel)%N) by (apply N.div_lt_upper_bound; lia).
      destruct (IH (n / 10)%N ((ch "0" + n mod 10)%N :: acc) Hd) as (l & Hl & Hv & Hz).
      exists (l ++ [(ch "0" + n mod 10)%N]). rewrite Hl, <- app_assoc. split; [reflexivity|]. split.
      * rewrite dec_value_app, Hv. cbn [dec_value]. change (ch "0") with 48%N. rewrite (N.add_comm 48), N.add_sub, N.mul_comm. symmetry. exact Hdm.
      * intros _ r Hr. assert (Hq : (n / 10 <> 0)%N). { intros Hq. rewrite Hq in Hdm. lia. }
        destruct l as [|c l]; [cbn in Hv; lia|]. apply (Hz Hq l). injection Hr as -> _. reflexivity.
Qed.
Lemma dec_N_value n : dec_value 0 (dec_N n) = n /\ (n <> 0%N -> forall r, dec_N n <> ch "0" :: r).
Proof.
  destruct (dec_loop_spec (S (N.to_nat (N.size n))) n []) as (l & Hl & Hv & Hz).
  - rewrite Nat2N.inj_succ, N2Nat.id. pose proof (N.size_gt n). apply N.lt_le_trans with (2 ^ N.size n)%N; [assumption|].
    apply N.le_trans with (10 ^ N.size n)%N; [apply N.pow_le_mono_l; lia|apply N.pow_le_mono_r; lia].
  - unfold dec_N. rewrite Hl, app_nil_r. auto.
Qed.

(** ** A global variable of a given type *)
Lemma global_variable E x t y G' : ident x -> body (code_limits E) (remember x empty_tab) t y G' -> (forall q k c p, y <> TPtr q k c p) ->
  demangles_to E (L "?" ++ x ++ L "@@3" ++ t ++ L "A") (show_variable E None (replace_quals Q_None y) x).
Proof.
  intros Hx Hb Hp. pose proof (va_plain (code_limits E) _ (ch "3") None t y G' false false false sc_global Hb Hp) as Hv.
  pose proof (sy_variable (code_limits E) empty_tab (x ++ L "@") (IText x) _ (L "@") [] _ _ _ _ _ x (us_base _ _ _ _ _ (ub_name empty_tab x Hx)) (ch_end _ _) Hv (it_text _ _ _ _)) as Hs.
  apply symbol_demangles in Hs. rewrite <- !app_assoc in Hs. exact Hs.
Qed.

(** ** C12: integer template arguments *)
(** A variable template [x<n>]: every text of a number prints that number in decimal. *)
Theorem template_number : forall (E : env) (x t : str) (v : N) (neg : bool),
  ident x -> signed_text t v neg ->
  demangles_to E (L "??$" ++ x ++ L "@$0" ++ t ++ L "@@3HA") (int_variable E [x ++ L "<" ++ (if neg then L "-" else []) ++ dec_N v ++ L ">"]).
Proof.
  intros E x t v neg Hx Ht.
  pose proof (va_plain (code_limits E) empty_tab (ch "3") None (L "H") (TPrim Q_None Int) _ false false false sc_global (bo_prim _ _ Int) ltac:(discriminate)) as Hv.
  pose proof (us_template (code_limits E) empty_tab (x ++ L "@") (IText x) _ ((L "$0" ++ t) ++ L "@") [opt neg (L "-") ++ dec_N v] _
    (tb_base _ _ _ _ (ub_name empty_tab x Hx)) (ta_cons _ _ _ _ _ _ _ _ (tg_int _ _ t v neg Ht) (ta_end _ _))) as Hu.
  pose proof (sy_variable (code_limits E) empty_tab _ _ _ (L "@") [] _ _ _ _ _ _ Hu (ch_end _ _) Hv (it_text _ _ _ _)) as Hs.
  apply symbol_demangles in Hs. rewrite <- !app_assoc in Hs. cbn [with_targs join] in Hs. rewrite <- !app_assoc in Hs. exact Hs.
Qed.
(** Every 64-bit value and sign has a text, hence prints back. *)
Theorem every_number : forall (E : env) (x : str) (v : N) (neg : bool),
  ident x -> (v < 2 ^ 64)%N ->
  demangles_to E (L "??$" ++ x ++ L "@$0" ++ (if neg then L "?" else []) ++ encode_number v ++ L "@@3HA")
    (int_variable E [x ++ L "<" ++ (if neg then L "-" else []) ++ dec_N v ++ L ">"]).
Proof.
  intros E x v neg Hx Hv. rewrite (app_assoc (if neg then L "?" else [])). apply template_number; [exact Hx|].
  exists (encode_number v). split; [apply encode_number_text; exact Hv|reflexivity].
Qed.
(** Longer encodings: the hexadecimal value modulo [2^64]. *)
Theorem long_number : forall (E : env) (x l : str) (neg : bool),
  ident x -> Forall (fun c => (ch "A" <= c <= ch "P")%N) l ->
  demangles_to E (L "??$" ++ x ++ L "@$0" ++ (if neg then L "?" else []) ++ (l ++ L "@") ++ L "@@3HA")
    (int_variable E [x ++ L "<" ++ (if neg then L "-" else []) ++ dec_N (letters_value 0 l mod 2 ^ 64) ++ L ">"]).
Proof.
  intros E x l neg Hx Hl. rewrite (app_assoc (if neg then L "?" else [])). apply template_number; [exact Hx|].
  exists (l ++ L "@"). split; [apply num_letters; exact Hl|reflexivity].
Qed.
Print Assumptions dec_N_value.
Print Assumptions every_number.
Print Assumptions long_number.
(** Non-vacuity: the largest value, negated. *)
Example every_number_case : ident (L "x") /\ (2 ^ 64 - 1 < 2 ^ 64)%N /\ encode_number (2 ^ 64 - 1) = L "PPPPPPPPPPPPPPPP@".
Proof. split; [|split; reflexivity]. split; [repeat constructor|]. split; [cbn; intuition discriminate|split; [reflexivity|discriminate]]. Qed.

(** ** C13: arrays *)
(** The text of an array type over the element type with text [t]. *)
Definition array_text (ds : list N) (t : str) : str := L "Y" ++ encode_number (N.of_nat (length ds)) ++ concat (map encode_number ds) ++ t.
(** Every dimension in brackets, in order, zero as empty brackets. *)
Definition brackets (ds : list N) : str := concat (map (fun d => L "[" ++ (if (d =? 0)%N then [] else dec_N d) ++ L "]") ds).
(** The declaration of [x] as an array of [y]. *)
Definition array_declaration (E : env) (y : ty) (x : str) (ds : list N) : str :=
  if negb (no_variable_type E) && negb (name_only E) then sp E (pre E y) ++ x ++ brackets ds ++ post E y else x.
Lemma dims_encode ds : Forall (fun d => (d < 2 ^ 64)%N) ds -> dims (concat (map encode_number ds)) ds.
Proof. induction 1; [constructor|]. apply di_cons; [apply encode_number_text; assumption|assumption]. Qed.
Lemma join_brackets ds : ds <> [] -> L "[" ++ join (L "][") (map dim_text ds) ++ L "]" = brackets ds.
Proof.
  unfold brackets. induction ds as [|d ds IH]; [congruence|]. intros _. destruct ds as [|d' ds].
  - cbn [map concat join]. rewrite app_nil_r. reflexivity.
  - cbn [map concat] in *. change (join (L "][") (dim_text d :: dim_text d' :: map dim_text ds)) with (dim_text d ++ L "][" ++ join (L "][") (map dim_text (d' :: ds))).
    rewrite <- IH by discriminate. rewrite <- !app_assoc. reflexivity.
Qed.
Theorem array_variable : forall (E : env) (x t : str) (y : ty) (G' : tab) (ds : list N),
  ident x -> body (code_limits E) (remember x empty_tab) t y G' ->
  ds <> [] -> Forall (fun d => (d < 2 ^ 64)%N) ds -> (N.of_nat (length ds) < 2 ^ 64)%N ->
  demangles_to E (L "?" ++ x ++ L "@@3" ++ array_text ds t ++ L "A") (array_declaration E y x ds).
Proof.
  intros E x t y G' ds Hx Ht Hd Hds Hl.
  pose proof (bo_array (code_limits E) (remember x empty_tab) (encode_number (N.of_nat (length ds))) ds (concat (map encode_number ds)) t
    y _ (encode_number_text _ Hl) Hd (dims_encode _ Hds) Ht) as Hb.
  pose proof (global_variable E x _ _ _ Hx Hb ltac:(discriminate)) as H. unfold array_text.
  replace (array_declaration E y x ds) with (show_variable E None (replace_quals Q_None (TArr Q_None ds y)) x); [exact H|].
  unfold show_variable, array_declaration, show_access, show_member_type. cbn [app opt f_access].
  replace (opt (negb (no_access_specifier E) && negb (name_only E)) []) with (@nil N) by (destruct (_ && _); reflexivity).
  replace (opt (negb (no_member_type E) && negb (name_only E)) []) with (@nil N) by (destruct (_ && _); reflexivity). cbn [app].
  destruct (_ && _); [|reflexivity]. cbn [replace_quals map_quals pre post].
  change (quals_after E Q_None) with (@nil N). rewrite app_nil_r, <- join_brackets by exact Hd. rewrite <- !app_assoc. reflexivity.
Qed.
(** For instance arrays of [int]. *)
Theorem int_array_variable : forall (E : env) (x : str) (ds : list N),
  negb (no_variable_type E) && negb (name_only E) = true ->
  ident x -> ds <> [] -> Forall (fun d => (d < 2 ^ 64)%N) ds -> (N.of_nat (length ds) < 2 ^ 64)%N ->
  demangles_to E (L "?" ++ x ++ L "@@3" ++ array_text ds (L "H") ++ L "A") (L "int " ++ x ++ brackets ds).
Proof.
  intros E x ds Hf Hx Hd Hds Hl. pose proof (array_variable E x (L "H") (TPrim Q_None Int) _ ds Hx (bo_prim _ _ Int) Hd Hds Hl) as H.
  unfold array_declaration in H. rewrite Hf in H. change (sp E (pre E (TPrim Q_None Int))) with (L "int ") in H.
  change (post E (TPrim Q_None Int)) with (@nil N) in H. rewrite app_nil_r in H. exact H.
Qed.
Print Assumptions array_variable.
Print Assumptions int_array_variable.
Example array_case : array_text [3; 0; 2 ^ 32]%N (L "H") = L "Y22A@BAAAAAAAA@H" /\ brackets [3; 0; 2 ^ 32]%N = L "[3][][4294967296]".
Proof. split; reflexivity. Qed.
Print Assumptions template_number.
