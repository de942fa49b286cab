(** Printing the same graph under more suppression flags: two printers side by side, the
    second one deleting text.  Proof infrastructure; the statements are in Suppress.v. *)
From Verif Require Import Parser Utf8 Lex Show Emit Wf.

(** [deletes a b]: [a] is [b] with some characters deleted. *)
Inductive deletes : str -> str -> Prop :=
| del_nil : deletes [] []
| del_keep c a b : deletes a b -> deletes (c :: a) (c :: b)
| del_drop c a b : deletes a b -> deletes a (c :: b).

Lemma del_refl a : deletes a a.
Proof. induction a; constructor; assumption. Qed.
Lemma del_empty b : deletes [] b.
Proof. induction b; constructor; assumption. Qed.
Lemma del_app a b c d : deletes a b -> deletes c d -> deletes (a ++ c) (b ++ d).
Proof. intros H1 H2. induction H1; cbn; try constructor; assumption. Qed.
Lemma del_app_r a b d : deletes a b -> deletes a (b ++ d).
Proof. intros H. rewrite <- (app_nil_r a). apply del_app; [assumption|apply del_empty]. Qed.
Lemma del_in a b c : deletes a b -> In c a -> In c b.
Proof. induction 1; cbn; tauto. Qed.
Lemma del_one c b : In c b -> deletes [c] b.
Proof.
  intros H. apply in_split in H. destruct H as (l & r & ->). change [c] with ([] ++ [c] ++ []).
  apply del_app; [apply del_empty|]. apply del_keep, del_empty.
Qed.
Lemma del_bytes a b : deletes a b -> str_bytes a <= str_bytes b.
Proof. induction 1; rewrite ?str_bytes_cons; lia. Qed.
Lemma del_nil_inv a : deletes a [] -> a = [].
Proof. inversion 1. reflexivity. Qed.
Lemma del_trans a b c : deletes a b -> deletes b c -> deletes a c.
Proof.
  intros H1 H2. revert a H1. induction H2; intros x H1.
  - apply del_nil_inv in H1. subst. constructor.
  - inversion H1; subst; [apply del_keep|apply del_drop]; apply IHdeletes; assumption.
  - apply del_drop, IHdeletes. assumption.
Qed.
Lemma del_len a b : deletes a b -> length a <= length b.
Proof. induction 1; cbn; lia. Qed.

Fixpoint delb (a b : str) : bool :=
  match a, b with
  | [], _ => true
  | _, [] => false
  | x :: a', y :: b' => if (x =? y)%N then delb a' b' else delb a b'
  end.
Lemma delb_ok a b : delb a b = true -> deletes a b.
Proof.
  revert a. induction b as [|y b IH]; intros [|x a] H; cbn in *; try discriminate; try apply del_empty.
  destruct (N.eqb_spec x y) as [->|]; [apply del_keep|apply del_drop]; auto.
Qed.

(** The last character. *)
Definition lastc (x : str) : option N := match rev x with c :: _ => Some c | [] => None end.
Lemma lastc_app a b : lastc (a ++ b) = match lastc b with Some c => Some c | None => lastc a end.
Proof. unfold lastc. rewrite rev_app_distr. destruct (rev b); reflexivity. Qed.
Lemma lastc_none a : lastc a = None <-> a = [].
Proof.
  unfold lastc. split; [|intros ->; reflexivity]. intros H. destruct (rev a) eqn:Hr; [|discriminate].
  rewrite <- (rev_involutive a), Hr. reflexivity.
Qed.

(** ** The flags *)
Record less (E E' : env) : Prop := {
  le_alnum : forall c, e_alnum E c = e_alnum E' c;
  le_out : e_out E = e_out E';
  le_pos : (0 < e_out E)%N;
  le_name : name_only E = true -> name_only E' = true;
  le_ret : no_return_type E = true -> no_return_type E' = true;
  le_ms : no_ms_keywords E = true -> no_ms_keywords E' = true;
  le_under : no_leading_underscores E = true -> no_leading_underscores E' = true;
  le_cc : no_calling_convention E = true -> no_calling_convention E' = true;
  le_acc : no_access_specifier E = true -> no_access_specifier E' = true;
  le_mem : no_member_type E = true -> no_member_type E' = true;
  le_tag : no_tag_specifier E = true -> no_tag_specifier E' = true;
  le_var : no_variable_type E = true -> no_variable_type E' = true;
  le_this : no_this_type E = true -> no_this_type E' = true
}.

Section Less.
  Variables E E' : env.
  Hypothesis V : less E E'.

  Definition word (x : str) : bool := ends_word E x.
  Lemma word_lastc x : word x = match lastc x with Some c => is_alphanumeric E c || (c =? ch ">")%N | None => false end.
  Proof. unfold word, ends_word, lastc. destruct (rev x); reflexivity. Qed.
  Lemma word' x : ends_word E' x = word x.
  Proof.
    unfold word, ends_word. destruct (rev x); [reflexivity|]. unfold is_alphanumeric.
    rewrite (le_alnum _ _ V). reflexivity.
  Qed.
  Lemma word_app a b : word (a ++ b) = match b with [] => word a | _ => word b end.
  Proof. apply ends_app. Qed.

  (** An open parenthesis at the end is never the result of a deletion (as far as [kap] holds). *)
  Variable kap : Prop.
  Definition K (x x' : str) : Prop := kap -> lastc x = Some (ch "(") -> lastc x' = Some (ch "(").
  Definition S0 (x x' : str) : Prop := deletes x' x /\ (N.of_nat (str_bytes x) < e_out E)%N.
  (** If a space is due behind the shorter text, it is due behind the longer one, or has been
      written there already. *)
  Definition J (x x' : str) : Prop := S0 x x' /\ K x x' /\ (word x' = true -> word x = true \/ deletes (x' ++ L " ") x).
  Definition Q (x x' : str) : Prop := S0 x x' /\ K x x' /\ (word x' = true -> word x = true \/ str_bytes x' < str_bytes x).

  (** No space is due behind the shorter text. *)
  Definition C (x x' : str) : Prop := S0 x x' /\ K x x' /\ word x' = false.
  Lemma C_J x x' : C x x' -> J x x'.
  Proof. intros (H1 & H2 & H3). split; [assumption|split; [assumption|]]. congruence. Qed.
  Lemma C_S x x' : C x x' -> S0 x x'. Proof. intros H; apply H. Qed.
  Lemma J_Q x x' : J x x' -> Q x x'.
  Proof.
    intros (H1 & H2 & H3). split; [assumption|split; [assumption|]]. intros Hw. destruct (H3 Hw) as [H|H]; [auto|].
    right. apply del_bytes in H. rewrite str_bytes_app in H. cbn in H. lia.
  Qed.
  Lemma Q_S x x' : Q x x' -> S0 x x'. Proof. intros H; apply H. Qed.
  Lemma J_S x x' : J x x' -> S0 x x'. Proof. intros H; apply H. Qed.

  (** ** Actions *)
  Definition simw (P R : str -> str -> Prop) (w w' : W) : Prop :=
    forall b b' x x', good b x -> good b' x' -> P x x' -> forall b1, w b = (b1, Ok tt) ->
    exists b1' y y', w' b' = (b1', Ok tt) /\ good b1 y /\ good b1' y' /\ R y y'.
  (** One-sided: what an action appends. *)
  Definition onew (P : str -> Prop) (w : W) : Prop :=
    forall b x, good b x -> (N.of_nat (str_bytes x) < e_out E)%N -> forall b1, w b = (b1, Ok tt) ->
    exists t, good b1 (x ++ t) /\ P t /\ (N.of_nat (str_bytes (x ++ t)) < e_out E)%N.
  Definition any (t : str) : Prop := True.
  Definition rem0 (t : str) : Prop := lastc t <> Some (ch "(").
  Definition rem (t : str) : Prop := t = [] \/ (lastc t <> Some (ch "(") /\ (word t = true \/ In (ch " ") t)).

  Lemma simw_weak (P P' R R' : str -> str -> Prop) w w' : (forall x y, P' x y -> P x y) -> (forall x y, R x y -> R' x y) -> simw P R w w' -> simw P' R' w w'.
  Proof.
    intros HP HR H b b' x x' Hb Hb' Hx b1 Hw. destruct (H b b' x x' Hb Hb' (HP _ _ Hx) b1 Hw) as (b1' & y & y' & H1 & H2 & H3 & H4).
    exists b1', y, y'. auto.
  Qed.
  Lemma simw_ret P : simw P P w_ret w_ret.
  Proof. intros b b' x x' Hb Hb' Hx b1 Hw. injection Hw as <-. exists b', x, x'. auto. Qed.
  Lemma simw_panic P R w' : simw P R w_panic w'.
  Proof. intros b b' x x' Hb Hb' Hx b1 Hw. discriminate. Qed.
  Lemma simw_fuel P R w' : simw P R w_fuel w'.
  Proof. intros b b' x x' Hb Hb' Hx b1 Hw. discriminate. Qed.
  Lemma simw_seq P R T m m' k k' : simw P R m m' -> simw R T k k' -> simw P T (m >> k) (m' >> k').
  Proof.
    intros Hm Hk b b' x x' Hb Hb' Hx b2 Hw. unfold w_seq in *. destruct (m b) as [b1 [[]| | |]] eqn:Em; try discriminate.
    destruct (Hm b b' x x' Hb Hb' Hx b1 Em) as (b1' & y & y' & -> & H2 & H3 & H4). exact (Hk _ _ _ _ H2 H3 H4 _ Hw).
  Qed.
  Lemma simw_ext P R w w' v v' : (forall b, w b = v b) -> (forall b, w' b = v' b) -> simw P R v v' -> simw P R w w'.
  Proof.
    intros H1 H2 H b b' x x' Hb Hb' Hx b1 Hw. rewrite H1 in Hw.
    destruct (H b b' x x' Hb Hb' Hx b1 Hw) as (b1' & r). exists b1'. rewrite H2. exact r.
  Qed.
  Lemma onew_weak (P R : str -> Prop) w : (forall t, P t -> R t) -> onew P w -> onew R w.
  Proof. intros HP H b x Hb Hl b1 Hw. destruct (H b x Hb Hl b1 Hw) as (t & H1 & H2 & H3). exists t. auto. Qed.
  Lemma onew_ret (P : str -> Prop) : P [] -> onew P w_ret.
  Proof. intros HP b x Hb Hl b1 Hw. injection Hw as <-. exists []. rewrite app_nil_r. auto. Qed.
  Lemma onew_panic P : onew P w_panic.
  Proof. intros b x Hb Hl b1 Hw. discriminate. Qed.
  Lemma onew_fuel P : onew P w_fuel.
  Proof. intros b x Hb Hl b1 Hw. discriminate. Qed.
  Lemma onew_seq (P R T : str -> Prop) m k : (forall a b, P a -> R b -> T (a ++ b)) -> onew P m -> onew R k -> onew T (m >> k).
  Proof.
    intros HT Hm Hk b x Hb Hl b2 Hw. unfold w_seq in *. destruct (m b) as [b1 [[]| | |]] eqn:Em; try discriminate.
    destruct (Hm b x Hb Hl b1 Em) as (t & H1 & H2 & H3). destruct (Hk b1 _ H1 H3 b2 Hw) as (u & G1 & G2 & G3).
    exists (t ++ u). rewrite app_assoc. auto.
  Qed.
  Lemma put_ok F s b b1 x : e_out F = e_out E -> good b x -> ustr s -> (N.of_nat (str_bytes x) < e_out E)%N -> put F s b = (b1, Ok tt) ->
    good b1 (x ++ s) /\ (N.of_nat (str_bytes (x ++ s)) < e_out E)%N.
  Proof.
    intros HF [Hb Hx] Hs Hl Hw. unfold put, w_str in Hw. destruct s as [|c s]; [injection Hw as <-; rewrite app_nil_r; repeat split; assumption|].
    remember (c :: s) as z. cbv zeta in Hw. destruct (N.ltb_spec (N.of_nat (length (b_bytes b) + length (utf8 z))) (e_out F)); [|discriminate].
    injection Hw as <-. rewrite HF in *. rewrite Hb, !utf8_length in *. split; [split; [cbn [b_bytes]; rewrite ?Hb, utf8_app; reflexivity|apply Forall_app; auto]|].
    rewrite str_bytes_app. assumption.
  Qed.
  Lemma put_can F s b x : e_out F = e_out E -> good b x -> (N.of_nat (str_bytes (x ++ s)) < e_out E)%N -> exists b1, put F s b = (b1, Ok tt).
  Proof.
    intros HF [Hb Hx] Hl. unfold put, w_str. destruct s as [|c s]; [eauto|]. remember (c :: s) as z. cbv zeta.
    rewrite Hb, !utf8_length, <- str_bytes_app, HF. apply N.ltb_lt in Hl. rewrite Hl. eauto.
  Qed.
  Lemma onew_put (P : str -> Prop) s : ustr s -> P s -> onew P (put E s).
  Proof. intros Hs HP b x Hb Hl b1 Hw. exists s. destruct (put_ok E s b b1 x eq_refl Hb Hs Hl Hw). auto. Qed.
  Lemma onew_if (P : str -> Prop) c w : P [] -> (c = true -> onew P w) -> onew P (w_if c w).
  Proof. intros HP H. destruct c; [apply H; reflexivity|apply onew_ret; assumption]. Qed.
  Lemma onew_ite (P : str -> Prop) (c : bool) w v : (c = true -> onew P w) -> (c = false -> onew P v) -> onew P (if c then w else v).
  Proof. intros H1 H2. destruct c; auto. Qed.
  Lemma onew_opt {A} (P : str -> Prop) (o : option A) f : P [] -> (forall a, o = Some a -> onew P (f a)) -> onew P (w_opt o f).
  Proof. intros HP H. destruct o; [apply H; reflexivity|apply onew_ret; assumption]. Qed.
  Lemma onew_space (P : str -> Prop) : P [] -> P (L " ") -> onew P (space_if_necessary E).
  Proof.
    intros H0 H1 b x Hb Hl b1 Hw. unfold space_if_necessary in Hw. destruct (last_char b); [|exact (onew_ret P H0 b x Hb Hl b1 Hw)].
    destruct (_ || _); [|exact (onew_ret P H0 b x Hb Hl b1 Hw)]. refine (onew_put P (L " ") _ H1 b x Hb Hl b1 Hw). repeat constructor.
  Qed.

  Lemma lastc_nonempty s : s <> [] -> exists c, lastc s = Some c.
  Proof. intros H. destruct (lastc s) eqn:Hs; [eauto|]. apply lastc_none in Hs. contradiction. Qed.
  Lemma word_eq a b : lastc a = lastc b -> word a = word b.
  Proof. intros H. rewrite !word_lastc, H. reflexivity. Qed.

  (** Two non-empty texts with the same last character. *)
  Lemma S_put2 x x' s s' : S0 x x' -> deletes s' s -> s' <> [] -> lastc s = lastc s' -> (N.of_nat (str_bytes (x ++ s)) < e_out E)%N -> J (x ++ s) (x' ++ s').
  Proof.
    intros [H1 H2] Hs Hn Hl Hb. destruct (lastc_nonempty s' Hn) as [c Hc].
    assert (Hx : lastc (x ++ s) = Some c) by (rewrite lastc_app, Hl, Hc; reflexivity).
    assert (Hx' : lastc (x' ++ s') = Some c) by (rewrite lastc_app, Hc; reflexivity).
    split; [split; [apply del_app; assumption|assumption]|]. split; [intros _ H; congruence|].
    intros Hw. left. rewrite <- Hw. apply word_eq. congruence.
  Qed.
  Lemma put2 s s' b b' x x' b1 : deletes s' s -> s' <> [] -> lastc s = lastc s' -> ustr s -> ustr s' ->
    good b x -> good b' x' -> S0 x x' -> put E s b = (b1, Ok tt) ->
    exists b1', put E' s' b' = (b1', Ok tt) /\ good b1 (x ++ s) /\ good b1' (x' ++ s') /\ J (x ++ s) (x' ++ s').
  Proof.
    intros Hs Hn Hl Hu Hu' Hb Hb' Hx Hw.
    destruct (put_ok E s b b1 x eq_refl Hb Hu (proj2 Hx) Hw) as [G1 G2].
    pose proof (S_put2 x x' s s' Hx Hs Hn Hl G2) as HJ.
    assert (Hbl : (N.of_nat (str_bytes (x' ++ s')) < e_out E)%N) by (pose proof (del_bytes _ _ (proj1 (proj1 HJ))); lia).
    destruct (put_can E' s' b' x' (eq_sym (le_out _ _ V)) Hb' Hbl) as [b1' Hw'].
    assert (Hbx : (N.of_nat (str_bytes x') < e_out E)%N) by (pose proof (del_bytes _ _ (proj1 Hx)); destruct Hx; lia).
    destruct (put_ok E' s' b' b1' x' (eq_sym (le_out _ _ V)) Hb' Hu' Hbx Hw') as [G3 _].
    exists b1'. auto.
  Qed.
  Lemma sim_put2 s s' : deletes s' s -> s' <> [] -> lastc s = lastc s' -> ustr s -> ustr s' -> simw S0 J (put E s) (put E' s').
  Proof.
    intros Hs Hn Hl Hu Hu' b b' x x' Hb Hb' Hx b1 Hw.
    destruct (put2 s s' b b' x x' b1 Hs Hn Hl Hu Hu' Hb Hb' Hx Hw) as (b1' & H1 & H2 & H3 & H4). exists b1', (x ++ s), (x' ++ s'). auto.
  Qed.
  Lemma sim_put_S s : s <> [] -> ustr s -> simw S0 J (put E s) (put E' s).
  Proof. intros. apply sim_put2; auto using del_refl. Qed.
  (** Deleting what one action writes. *)
  Lemma sim_drop_S w : onew any w -> simw S0 S0 w w_ret.
  Proof.
    intros H b b' x x' Hb Hb' Hx b1 Hw. destruct (H b x Hb (proj2 Hx) b1 Hw) as (t & H1 & H2 & H3).
    exists b', (x ++ t), x'. split; [reflexivity|]. split; [assumption|]. split; [assumption|]. split; [apply del_app_r, Hx|assumption].
  Qed.
  Lemma lastc_rem x t : lastc t <> Some (ch "(") -> t <> [] -> lastc (x ++ t) <> Some (ch "(").
  Proof. intros H Hn. rewrite lastc_app. destruct (lastc_nonempty t Hn) as [c Hc]. rewrite Hc in *. assumption. Qed.
  Lemma sim_drop w : onew rem w -> simw J J w w_ret.
  Proof.
    intros H b b' x x' Hb Hb' Hx b1 Hw. destruct (H b x Hb (proj2 (proj1 Hx)) b1 Hw) as (t & H1 & H2 & H3).
    exists b', (x ++ t), x'. split; [reflexivity|]. split; [assumption|]. split; [assumption|].
    destruct Hx as ([D1 D2] & HK & HW). destruct H2 as [->|[H2 H4]]; [rewrite app_nil_r; repeat split; assumption|].
    assert (Hn : t <> []) by (intros ->; destruct H4 as [H4|H4]; [discriminate|contradiction]).
    split; [split; [apply del_app_r; assumption|assumption]|]. split; [intros _ Hc; exfalso; revert Hc; apply lastc_rem; assumption|].
    intros Hw'. destruct H4 as [H4|H4]; [left; rewrite word_app; destruct t; [congruence|assumption]|].
    right. apply del_app; [assumption|]. apply del_one; assumption.
  Qed.
  Lemma sim_drop_Q w : onew rem0 w -> simw Q Q w w_ret.
  Proof.
    intros H b b' x x' Hb Hb' Hx b1 Hw. destruct (H b x Hb (proj2 (proj1 Hx)) b1 Hw) as (t & H1 & H2 & H3).
    exists b', (x ++ t), x'. split; [reflexivity|]. split; [assumption|]. split; [assumption|].
    destruct Hx as ([D1 D2] & HK & HW). destruct t as [|c t]; [rewrite app_nil_r in *; repeat split; assumption|].
    split; [split; [apply del_app_r; assumption|assumption]|].
    split; [intros _ Hc; exfalso; revert Hc; apply lastc_rem; [assumption|discriminate]|].
    intros Hw'. right. pose proof (del_bytes _ _ D1). rewrite str_bytes_app, str_bytes_cons. pose proof (utf8_len_pos c). lia.
  Qed.
  Lemma rem_rem0 t : rem t -> rem0 t.
  Proof. intros [->|[H _]]; [discriminate|exact H]. Qed.
  Lemma rem_nil : rem []. Proof. left; reflexivity. Qed.
  Lemma rem_app a b : rem a -> rem b -> rem (a ++ b).
  Proof.
    intros Ha [->|[H1 H2]]; [rewrite app_nil_r; assumption|].
    assert (Hn : b <> []) by (intros ->; destruct H2 as [H2|H2]; [discriminate|contradiction]). right.
    split; [apply lastc_rem; assumption|]. destruct H2 as [H2|H2]; [left; rewrite word_app; destruct b; [congruence|assumption]|].
    right. apply in_or_app. auto.
  Qed.
  Lemma rem0_app a b : rem0 a -> rem0 b -> rem0 (a ++ b).
  Proof. unfold rem0. intros Ha Hb. rewrite lastc_app. destruct (lastc b); assumption. Qed.
  Lemma rem0_end a b : b <> [] -> rem0 b -> rem0 (a ++ b).
  Proof. unfold rem0. intros Hn Hb. rewrite lastc_app. destruct (lastc_nonempty b Hn) as [c Hc]. rewrite Hc in *. assumption. Qed.
  Lemma rem_end a : rem (a ++ L " ").
  Proof. right. rewrite lastc_app. split; [discriminate|]. right. apply in_or_app. right. left. reflexivity. Qed.

  Lemma sim_put s : ustr s -> simw J J (put E s) (put E' s).
  Proof.
    intros Hu. destruct s as [|c s]; [exact (simw_ret J)|]. refine (simw_weak S0 J J J _ _ J_S (fun _ _ h => h) (sim_put_S _ _ Hu)). discriminate.
  Qed.
  Lemma sim_put_Q s : ustr s -> simw Q Q (put E s) (put E' s).
  Proof.
    intros Hu. destruct s as [|c s]; [exact (simw_ret Q)|]. refine (simw_weak S0 Q J Q _ _ Q_S J_Q (sim_put_S _ _ Hu)). discriminate.
  Qed.
  Lemma sim_put_QJ s : s <> [] -> ustr s -> simw Q J (put E s) (put E' s).
  Proof. intros Hn Hu. refine (simw_weak S0 Q J J _ _ Q_S (fun _ _ h => h) (sim_put_S _ _ _)); assumption. Qed.

  (** ** Conditionals whose condition the flags may switch off *)
  Lemma sim_if_gen P (c c' : bool) m m' : (c' = true -> c = true) ->
    (c = true -> c' = true -> simw P P m m') -> (c = true -> c' = false -> simw P P m w_ret) -> simw P P (w_if c m) (w_if c' m').
  Proof.
    intros Hc H1 H2. destruct c, c'; cbn [w_if]; [apply H1; reflexivity|apply H2; reflexivity|discriminate (Hc eq_refl)|apply simw_ret].
  Qed.
  Lemma sim_if P (c : bool) m m' : (c = true -> simw P P m m') -> simw P P (w_if c m) (w_if c m').
  Proof. intros H. destruct c; [apply H; reflexivity|apply simw_ret]. Qed.
  Lemma sim_ite P R (c : bool) m m' k k' : (c = true -> simw P R m m') -> (c = false -> simw P R k k') ->
    simw P R (if c then m else k) (if c then m' else k').
  Proof. intros. destruct c; auto. Qed.
  Lemma sim_opt {A} P (o : option A) f f' : (forall a, o = Some a -> simw P P (f a) (f' a)) -> simw P P (w_opt o f) (w_opt o f').
  Proof. intros H. destruct o; [apply H; reflexivity|apply simw_ret]. Qed.

  (** ** Spaces *)
  Lemma space_eq F b x : good b x -> space_if_necessary F b = if ends_word F x then put F (L " ") b else w_ret b.
  Proof.
    intros Hb. unfold space_if_necessary. rewrite (last_good b x Hb). unfold ends_word. destruct (rev x); [reflexivity|].
    unfold put. destruct (_ || _); reflexivity.
  Qed.
  Lemma ustr_sp : ustr (L " "). Proof. repeat constructor. Qed.
  Lemma word_sp x : word (x ++ L " ") = false.
  Proof. rewrite word_app. reflexivity. Qed.
  Lemma sim_spaceC : simw J C (space_if_necessary E) (space_if_necessary E').
  Proof.
    intros b b' x x' Hb Hb' Hx b1 Hw. rewrite (space_eq E b x Hb) in Hw. rewrite (space_eq E' b' x' Hb'). rewrite word'.
    change (ends_word E x) with (word x) in Hw. destruct (word x') eqn:W'.
    - destruct (word x) eqn:W0.
      + destruct (put2 (L " ") (L " ") b b' x x' b1 (del_refl _) ltac:(discriminate) eq_refl ustr_sp ustr_sp Hb Hb' (J_S _ _ Hx) Hw) as (b1' & H1 & H2 & H3 & H4).
        exists b1', (x ++ L " "), (x' ++ L " "). split; [assumption|]. split; [assumption|]. split; [assumption|].
        split; [apply H4|]. split; [apply H4|]. apply word_sp.
      + injection Hw as <-. destruct Hx as ([D1 D2] & HK & HW). destruct (HW W') as [H|H]; [congruence|].
        assert (Hbl : (N.of_nat (str_bytes (x' ++ L " ")) < e_out E)%N) by (pose proof (del_bytes _ _ H); lia).
        destruct (put_can E' (L " ") b' x' (eq_sym (le_out _ _ V)) Hb' Hbl) as [b1' Hw'].
        assert (Hbx : (N.of_nat (str_bytes x') < e_out E)%N) by (rewrite str_bytes_app in Hbl; lia).
        destruct (put_ok E' (L " ") b' b1' x' (eq_sym (le_out _ _ V)) Hb' ustr_sp Hbx Hw') as [G3 _].
        exists b1', x, (x' ++ L " "). split; [assumption|]. split; [assumption|]. split; [assumption|]. split; [split; assumption|].
        split; [|apply word_sp]. intros Hk Hc. exfalso. apply (HK Hk) in Hc. rewrite word_lastc, Hc in W'. discriminate W'.
    - destruct Hx as ([D1 D2] & HK & HW). destruct (word x) eqn:W0.
      + destruct (put_ok E (L " ") b b1 x eq_refl Hb ustr_sp D2 Hw) as [G1 G2].
        exists b', (x ++ L " "), x'. split; [reflexivity|]. split; [assumption|]. split; [assumption|]. split; [split; [apply del_app_r; assumption|assumption]|].
        split; [|assumption]. intros _ Hc. exfalso. rewrite lastc_app in Hc. discriminate Hc.
      + injection Hw as <-. exists b', x, x'. split; [reflexivity|]. split; [assumption|]. split; [assumption|]. split; [split; assumption|]. split; assumption.
  Qed.
  Lemma sim_space : simw J J (space_if_necessary E) (space_if_necessary E').
  Proof. refine (simw_weak _ _ _ _ _ _ (fun _ _ h => h) C_J sim_spaceC). Qed.
  Lemma sim_putC s : s <> [] -> ustr s -> word s = false -> simw S0 C (put E s) (put E' s).
  Proof.
    intros Hn Hu Hc b b' x x' Hb Hb' Hx b1 Hw.
    destruct (put2 s s b b' x x' b1 (del_refl _) Hn eq_refl Hu Hu Hb Hb' Hx Hw) as (b1' & H1 & H2 & H3 & H4).
    exists b1', (x ++ s), (x' ++ s). split; [assumption|]. split; [assumption|]. split; [assumption|].
    split; [apply H4|]. split; [apply H4|]. rewrite word_app. destruct s; [congruence|assumption].
  Qed.
  Lemma sim_dropC w : onew rem0 w -> simw C C w w_ret.
  Proof.
    intros H b b' x x' Hb Hb' (H1 & H2 & H3) b1 Hw.
    destruct (H b x Hb (proj2 H1) b1 Hw) as (t & T1 & T2 & T3). exists b', (x ++ t), x'. split; [reflexivity|].
    split; [assumption|]. split; [assumption|]. destruct t as [|c t]; [rewrite app_nil_r in *; split; auto|].
    split; [split; [apply del_app_r, H1|assumption]|]. split; [|assumption].
    intros _ Hc. exfalso. revert Hc. apply lastc_rem; [assumption|discriminate].
  Qed.
End Less.
