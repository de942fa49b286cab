(** Names and their back-references at the level of the API (C16). *)
From Verif Require Import Parser Api Utf8 Show Grammar Number Safety Trip.

(** ** Specification *)
(** Names as they appear in the text, each closed by ['@']. *)
Definition names_text (xs : list str) : str := concat (map (fun x => x ++ L "@") xs).
(** The first occurrences of the elements of [l] that are not in [seen], in order. *)
Fixpoint firsts (seen l : list str) : list str :=
  match l with
  | [] => []
  | x :: l => if existsb (str_eqb x) seen then firsts seen l else x :: firsts (x :: seen) l
  end.
(** What a digit may refer to after the names [l]: the first ten distinct ones. *)
Definition remembered (l : list str) : list str := firstn 10 (firsts [] l).
(** The declaration of a global [int] with the given name (outermost scope first). *)
Definition int_variable (E : env) (name : list str) : str := show_variable E None (TPrim Q_None Int) (qualified name).
(** The declaration of a global of the given class type. *)
Definition class_variable (E : env) (cls name : list str) : str := show_variable E None (TTag Q_None TKClass cls) (qualified name).

(** ** The specification is what it says *)
Lemma str_eqb_iff x y : str_eqb x y = true <-> x = y.
Proof.
  revert y. induction x as [|a x IH]; intros [|b y]; cbn; try (split; congruence).
  rewrite andb_true_iff, N.eqb_eq, IH. split; [intros [-> ->]; reflexivity|intros H; injection H; auto].
Qed.
Lemma seen_iff y seen : existsb (str_eqb y) seen = true <-> In y seen.
Proof.
  rewrite existsb_exists. split; [intros (z & H & Hz); apply str_eqb_iff in Hz; subst; exact H|]. intros H. exists y. split; [exact H|]. apply str_eqb_iff. reflexivity.
Qed.
Lemma firsts_In seen l x : In x (firsts seen l) <-> In x l /\ ~ In x seen.
Proof.
  revert seen. induction l as [|y l IH]; intros seen; cbn; [tauto|]. pose proof (seen_iff y seen) as Hex.
  destruct (existsb (str_eqb y) seen).
  - rewrite IH. assert (In y seen) by (apply Hex; reflexivity). split; [tauto|]. intros [[<-|H1] H2]; tauto.
  - assert (Hy : ~ In y seen) by (intros H; apply Hex in H; discriminate). cbn. rewrite IH. cbn. split.
    + intros [<-|[H1 H2]]; tauto.
    + intros [[<-|H1] H2]; [tauto|]. destruct (list_eq_dec N.eq_dec y x) as [->|Hn]; [tauto|]. right. tauto.
Qed.
Lemma firsts_NoDup seen l : NoDup (firsts seen l).
Proof.
  revert seen. induction l as [|y l IH]; intros seen; cbn; [constructor|]. destruct (existsb _ _); [apply IH|]. constructor; [|apply IH].
  rewrite firsts_In. cbn. tauto.
Qed.
(** Order of first appearance: what comes first among the names comes first in the table. *)
Lemma firsts_app seen l m : exists m', firsts seen (l ++ m) = firsts seen l ++ m'.
Proof.
  revert seen. induction l as [|y l IH]; intros seen; cbn; [eexists; reflexivity|]. destruct (existsb _ _); [apply IH|].
  destruct (IH (y :: seen)) as (m' & ->). exists m'. reflexivity.
Qed.

(** ** The tables of the grammar *)
Definition rem_all (xs : list str) (G : tab) : tab := fold_left (fun G x => remember x G) xs G.
Lemma existsb_perm x a b : (forall y : str, In y a <-> In y b) -> existsb (str_eqb x) a = existsb (str_eqb x) b.
Proof.
  intros H. pose proof (seen_iff x a) as H1. pose proof (seen_iff x b) as H2. rewrite H in H1.
  destruct (existsb (str_eqb x) a), (existsb (str_eqb x) b); try reflexivity; intuition congruence.
Qed.
Lemma firsts_perm l : forall a b, (forall y : str, In y a <-> In y b) -> firsts a l = firsts b l.
Proof.
  induction l as [|x l IH]; intros a b H; cbn; [reflexivity|]. rewrite (existsb_perm x a b H).
  destruct (existsb (str_eqb x) b); [apply IH; exact H|]. f_equal. apply IH. intros y. cbn. rewrite H. tauto.
Qed.
Lemma rem_all_full xs : forall t P, 10 <= length t -> rem_all xs (t, P) = (t, P).
Proof.
  induction xs as [|x xs IH]; intros t P Ht; [reflexivity|]. cbn [rem_all fold_left]. unfold remember. cbn [fst].
  replace (10 <=? length t) with true by (symmetry; apply Nat.leb_le; lia). cbn [orb]. apply IH. exact Ht.
Qed.
Lemma rem_all_firsts xs : forall t P, length t <= 10 -> rem_all xs (t, P) = (firstn 10 (t ++ firsts t xs), P).
Proof.
  induction xs as [|x xs IH]; intros t P Ht.
  - cbn [rem_all fold_left firsts]. rewrite app_nil_r, firstn_all2 by exact Ht. reflexivity.
  - destruct (Nat.leb_spec 10 (length t)) as [Hf|Hf].
    + rewrite rem_all_full by exact Hf. f_equal. rewrite firstn_app. replace (10 - length t) with 0 by lia. rewrite firstn_O, app_nil_r, firstn_all2 by exact Ht. reflexivity.
    + unfold rem_all. cbn [fold_left]. unfold remember at 2. cbn [fst snd]. replace (10 <=? length t) with false by (symmetry; apply Nat.leb_gt; lia). cbn [orb].
      cbn [firsts]. destruct (existsb (str_eqb x) t) eqn:He; [apply IH; exact Ht|].
      fold (rem_all xs (t ++ [x], P)). rewrite IH by (rewrite app_length; cbn; lia). rewrite <- app_assoc. cbn [app].
      rewrite (firsts_perm xs (t ++ [x]) (x :: t)); [reflexivity|]. intros y. rewrite in_app_iff. cbn. tauto.
Qed.
Lemma rem_all_spec xs P : rem_all xs ([], P) = (remembered xs, P).
Proof. rewrite rem_all_firsts by (cbn; lia). reflexivity. Qed.

Section Names.
  Variable E : env.
  Lemma chain_names xs : forall G t ys G2, Forall ident xs -> chain E (rem_all xs G) t ys G2 -> chain E G (names_text xs ++ t) (ys ++ rev xs) G2.
  Proof.
    induction xs as [|x xs IH]; intros G t ys G2 Hx H.
    - cbn. rewrite app_nil_r. exact H.
    - inversion Hx; subst. cbn [names_text map concat rev]. rewrite <- (app_assoc (x ++ L "@")), (app_assoc ys). eapply ch_cons; [apply pc_name; assumption|].
      apply IH; [assumption|exact H].
  Qed.
End Names.

(** ** C16: a digit denotes the name it says *)
(** Names [xs], innermost first, the first of them the variable's own; then a scope given by digit [i]. *)
Theorem name_backref : forall (E : env) (x : str) (xs : list str) (i : nat) (y : str),
  Forall ident (x :: xs) -> nth_error (remembered (x :: xs)) i = Some y ->
  demangles_to E (L "?" ++ names_text (x :: xs) ++ [digit_char i] ++ L "@3HA") (int_variable E (y :: rev (x :: xs))).
Proof.
  intros E x xs i y Hx Hy. inversion Hx as [|? ? H1 H2]; subst.
  assert (Hi : i < 10). { assert (Hl : i < length (remembered (x :: xs))) by (apply nth_error_Some; congruence). unfold remembered in Hl. rewrite firstn_length in Hl. lia. }
  pose proof (rem_all_spec (x :: xs) []) as Hr. change (rem_all (x :: xs) ([], [])) with (rem_all xs (remember x empty_tab)) in Hr.
  assert (Hc : chain (code_limits E) (remember x empty_tab) (names_text xs ++ [digit_char i] ++ L "@") ([y] ++ rev xs) (rem_all xs (remember x empty_tab))).
  { apply chain_names; [exact H2|]. apply (ch_cons _ _ [digit_char i] y (rem_all xs (remember x empty_tab)) (L "@") []).
    - apply pc_ref; [exact Hi|]. rewrite Hr. exact Hy.
    - apply ch_end. }
  assert (Hv : variable (code_limits E) (rem_all xs (remember x empty_tab)) (L "3HA") None (TPrim Q_None Int) (rem_all xs (remember x empty_tab))).
  { apply (va_plain (code_limits E) _ (ch "3") None (L "H") (TPrim Q_None Int) _ false false false); [constructor|apply (bo_prim _ _ Int)|discriminate]. }
  pose proof (sy_variable (code_limits E) empty_tab (x ++ L "@") (IText x) _ _ _ _ _ _ _ _ x (us_base _ _ _ _ _ (ub_name empty_tab x H1)) Hc Hv (it_text _ _ _ _)) as Hs.
  apply symbol_demangles in Hs. cbn [names_text map concat]. rewrite <- !app_assoc in *. cbn [rev]. exact Hs.
Qed.
(** The same for the name of a type. *)
Theorem type_name_backref : forall (E : env) (x : str) (xs : list str) (i : nat) (y : str),
  Forall ident (x :: xs) -> nth_error (remembered (x :: xs)) i = Some y ->
  demangles_to E (L "?" ++ names_text (x :: xs) ++ L "@3V" ++ [digit_char i] ++ L "@A") (class_variable E [y] (rev (x :: xs))).
Proof.
  intros E x xs i y Hx Hy. inversion Hx as [|? ? H1 H2]; subst.
  assert (Hi : i < 10). { assert (Hl : i < length (remembered (x :: xs))) by (apply nth_error_Some; congruence). unfold remembered in Hl. rewrite firstn_length in Hl. lia. }
  pose proof (rem_all_spec (x :: xs) []) as Hr. change (rem_all (x :: xs) ([], [])) with (rem_all xs (remember x empty_tab)) in Hr.
  assert (Hc : chain (code_limits E) (remember x empty_tab) (names_text xs ++ L "@") ([] ++ rev xs) (rem_all xs (remember x empty_tab))).
  { apply chain_names; [exact H2|]. apply ch_end. }
  assert (Hv : variable (code_limits E) (rem_all xs (remember x empty_tab)) (L "3" ++ (L "V" ++ [digit_char i] ++ L "@") ++ L "A") None (TTag Q_None TKClass [y]) (rem_all xs (remember x empty_tab))).
  { apply (va_plain (code_limits E) _ (ch "3") None (L "V" ++ [digit_char i] ++ L "@") (TTag Q_None TKClass [y]) _ false false false); [constructor| |discriminate].
    apply (bo_tag _ _ TKClass). apply (qn_intro _ _ [digit_char i] y (rem_all xs (remember x empty_tab)) (L "@") []); [|apply ch_end].
    apply tn_ref; [exact Hi|]. rewrite Hr. exact Hy. }
  pose proof (sy_variable (code_limits E) empty_tab (x ++ L "@") (IText x) _ _ _ _ _ _ _ _ x (us_base _ _ _ _ _ (ub_name empty_tab x H1)) Hc Hv (it_text _ _ _ _)) as Hs.
  apply symbol_demangles in Hs. cbn [names_text map concat]. rewrite <- !app_assoc in *. cbn [rev app] in *. exact Hs.
Qed.
Print Assumptions name_backref.
Print Assumptions type_name_backref.
(** Non-vacuity: three names, one of them twice; digit 1 is the second distinct one. *)
Example name_backref_case : nth_error (remembered [L "x"; L "x"; L "ns"]) 1 = Some (L "ns") /\ Forall ident [L "x"; L "x"; L "ns"].
Proof.
  split; [reflexivity|]. repeat (constructor; [split; [repeat constructor|split; [cbn; intuition discriminate|split; [reflexivity|discriminate]]]|]). constructor.
Qed.
