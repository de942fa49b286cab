(** Two runs on texts that differ only in characters the demangler cannot tell apart: the
    parser.  Proof infrastructure. *)
From Verif Require Import Parser Utf8 Format Alike.

Create HintDb alk.

Section AlikeParse.
  Variables (al al' : N -> bool) (R : N -> N -> Prop).
  Hypothesis HR : alike al al' R.
  Variables (fl nd ou : N) (gr gr' : policy).
  Notation E := (envL al fl nd ou gr).
  Notation E' := (envR al' fl nd ou gr').
  Notation Rs := (Rs R).
  Notation nrel := (nrel R).
  Notation grel := (grel R).
  Notation relw := (relw R).
  Notation brel := (brel R).

  (** ** Character and text tests *)
  Definition low (f : N -> bool) : Prop := forall c, (256 <= c)%N -> f c = false.
  Lemma low_range lo hi : (hi <? 256)%N = true -> low (in_range lo hi).
  Proof. intros H c Hc. apply N.ltb_lt in H. unfold in_range. apply andb_false_iff. right. apply N.leb_gt. lia. Qed.
  Lemma low_one_of l : forallb (fun x => (x <? 256)%N) l = true -> low (one_of l).
  Proof.
    intros H c Hc. unfold one_of. induction l as [|x l IH]; [reflexivity|]. cbn [existsb forallb] in *.
    apply andb_prop in H. destruct H as [H1 H2]. apply N.ltb_lt in H1. rewrite (IH H2).
    destruct (N.eqb_spec c x); [lia|reflexivity].
  Qed.
  Lemma low_eqb k : (k <? 256)%N = true -> low (fun c => (c =? k)%N).
  Proof. intros H c Hc. apply N.ltb_lt in H. apply N.eqb_neq. lia. Qed.
  Lemma low_digit : low is_digit. Proof. apply low_range; reflexivity. Qed.
  Lemma low_upper : low is_upper. Proof. apply low_range; reflexivity. Qed.
  Lemma low_lower : low is_lower. Proof. apply low_range; reflexivity. Qed.
  Lemma low_rebased : low is_rebased. Proof. apply low_range; reflexivity. Qed.
  Lemma R_low f c c' : low f -> R c c' -> f c' = f c.
  Proof.
    intros Hf H. destruct (al_case _ _ _ HR _ _ H) as [<-|[H1 H2]]; [reflexivity|]. rewrite !Hf by assumption. reflexivity.
  Qed.
  Lemma R_lookup {A} c c' (t : list (N * A)) : forallb (fun p => (fst p <? 256)%N) t = true -> R c c' -> lookup c' t = lookup c t.
  Proof.
    intros Ht H. induction t as [|[k v] t IH]; [reflexivity|]. cbn [lookup forallb fst] in *.
    apply andb_prop in Ht. destruct Ht as [H1 H2]. apply N.ltb_lt in H1. rewrite (R_eqb _ _ _ HR _ _ _ H H1), (IH H2). reflexivity.
  Qed.
  Lemma Rs_empty s s' : Rs s s' -> is_empty s' = is_empty s.
  Proof. destruct 1; reflexivity. Qed.
  Lemma Rs_first s s' : Rs s s' -> orel R (first_char s) (first_char s').
  Proof. destruct 1; cbn; auto. Qed.
  Lemma Rs_first_is f s s' : low f -> Rs s s' -> first_is f s' = first_is f s.
  Proof. intros Hf. destruct 1; cbn; [reflexivity|]. apply R_low; assumption. Qed.
  Lemma Rs_strip p : forallb (fun x => (x <? 256)%N) p = true -> forall s s', Rs s s' -> orel Rs (strip_prefix p s) (strip_prefix p s').
  Proof.
    induction p as [|x p IH]; intros Hp s s' H; [exact H|]. cbn [forallb] in Hp. apply andb_prop in Hp. destruct Hp as [H1 H2].
    destruct H as [|c c' s s' Hc H]; [exact I|]. cbn [strip_prefix]. apply N.ltb_lt in H1.
    rewrite !(N.eqb_sym x), (R_eqb _ _ _ HR _ _ _ Hc H1). destruct (c =? x)%N; [apply IH; assumption|exact I].
  Qed.
  Lemma Rs_starts p s s' : forallb (fun x => (x <? 256)%N) p = true -> Rs s s' -> starts_with p s' = starts_with p s.
  Proof.
    intros Hp H. unfold starts_with. pose proof (Rs_strip p Hp _ _ H) as Hs.
    destruct (strip_prefix p s), (strip_prefix p s'); cbn in Hs; try contradiction; reflexivity.
  Qed.
  Lemma Rs_find x s s' : (x < 256)%N -> Rs s s' -> find_char x s' = find_char x s.
  Proof.
    intros Hx. induction 1 as [|c c' s s' Hc H IH]; [reflexivity|]. cbn [find_char].
    rewrite (R_eqb _ _ _ HR _ _ _ Hc Hx), IH, (al_len _ _ _ HR _ _ Hc). reflexivity.
  Qed.
  Lemma Rs_split : forall s s', Rs s s' -> forall n,
    orel (fun x y => Rs (fst x) (fst y) /\ Rs (snd x) (snd y)) (split_bytes n s) (split_bytes n s').
  Proof.
    induction 1 as [|c c' s s' Hc H IH]; intros [|n]; cbn [split_bytes]; cbn [orel fst snd]; try (split; constructor; assumption); try exact I.
    rewrite (al_len _ _ _ HR _ _ Hc). destruct (utf8_len c' <=? S n); [|exact I]. specialize (IH (S n - utf8_len c')).
    destruct (split_bytes _ s) as [[a b]|], (split_bytes _ s') as [[a' b']|]; cbn [orel fst snd] in IH; try contradiction; [|exact I].
    destruct IH as [Ha Hb]. cbn [orel fst snd]. split; [constructor; assumption|assumption].
  Qed.
  Lemma Rs_last s s' d : Rs s s' -> s <> [] -> R (last s d) (last s' d).
  Proof.
    intros H Hd. induction H as [|c c' s s' Hc H IH]; [congruence|]. destruct H; [exact Hc|]. apply IH. discriminate.
  Qed.
  Lemma Rs_forallb f s s' : low f -> Rs s s' -> forallb f s' = forallb f s.
  Proof. intros Hf. induction 1 as [|c c' s s' Hc H IH]; cbn; [reflexivity|]. rewrite (R_low f _ _ Hf Hc), IH. reflexivity. Qed.
  Lemma Rs_scope s s' : Rs s s' -> local_scope_pattern s' = local_scope_pattern s.
  Proof.
    intros H. destruct H as [|q q' s s' Hq H]; [reflexivity|]. cbn [local_scope_pattern].
    rewrite (R_eqb _ _ _ HR _ _ (ch "?") Hq) by reflexivity. destruct (q =? ch "?")%N; [|reflexivity].
    rewrite (Rs_find (ch "?") _ _ eq_refl H). destruct (find_char (ch "?") s) as [e|]; [|reflexivity].
    pose proof (Rs_split _ _ H e) as Hs.
    destruct (split_bytes e s) as [[a b]|], (split_bytes e s') as [[a' b']|]; cbn [orel fst snd] in Hs; try contradiction; [|reflexivity].
    destruct Hs as [Ha _]. pose proof Ha as Hcand.
    destruct Ha as [|c0 c0' r r' Hc Hr]; [reflexivity|]. destruct Hr as [|c1 c1' r r' Hc1 Hr].
    - rewrite (R_eqb _ _ _ HR _ _ (ch "@") Hc) by reflexivity. rewrite (R_low _ _ _ low_digit Hc). reflexivity.
    - rewrite (R_eqb _ _ _ HR _ _ (ch "@") (Rs_last _ _ 0%N Hcand ltac:(discriminate))) by reflexivity.
      rewrite <- (Rs_bytes _ _ _ HR _ _ Hcand).
      destruct (_ =? ch "@")%N; [|reflexivity].
      pose proof (Rs_split _ _ Hcand (str_bytes (c0 :: c1 :: r) - 1)) as Hs.
      destruct (split_bytes _ (c0 :: c1 :: r)) as [[x y]|], (split_bytes _ (c0' :: c1' :: r')) as [[x' y']|];
        cbn [orel fst snd] in Hs; try contradiction; [|reflexivity].
      destruct Hs as [Hx _]. destruct Hx as [|z z' x x' Hz Hx]; [reflexivity|].
      rewrite (R_low (in_range (ch "B") (ch "P")) _ _ (low_range (ch "B") (ch "P") eq_refl) Hz), (Rs_forallb _ _ _ low_rebased Hx). reflexivity.
  Qed.
  Lemma Rs_skip c s s' : (c < 256)%N -> Rs s s' -> Rs (skip c s) (skip c s').
  Proof.
    intros Hc H. destruct H as [|x x' s s' Hx H]; [constructor|]. cbn [skip]. rewrite (R_eqb _ _ _ HR _ _ _ Hx Hc).
    destruct (x =? c)%N; [assumption|]. constructor; assumption.
  Qed.
  Ltac one H := repeat match type of H with R ?c ?c' =>
    match goal with
    | |- context [one_of ?l c'] => rewrite (R_low (one_of l) c c' (low_one_of l eq_refl) H)
    | |- context [(c' =? ?k)%N] => rewrite (R_eqb _ _ _ HR c c' k H) by reflexivity
    end end.
  Ltac fst1 H := repeat match type of H with Alike.Rs R ?c ?c' =>
    match goal with
    | |- context [first_is (one_of ?l) c'] => rewrite (Rs_first_is (one_of l) c c' (low_one_of l eq_refl) H)
    | |- context [first_is (fun x => (x =? ?k)%N) c'] => rewrite (Rs_first_is (fun x => (x =? k)%N) c c' (low_eqb k eq_refl) H)
    | |- context [starts_with ?p c'] => rewrite (Rs_starts p c c' eq_refl H)
    end end.
  Lemma Rs_member s s' : Rs s s' -> is_member_pointer s' = is_member_pointer s.
  Proof.
    intros H. destruct H as [|c c' s s' Hc H]; [reflexivity|]. cbn [is_member_pointer].
    one Hc. destruct (one_of (L "$A") c); [reflexivity|].
    destruct (one_of (L "PQRS") c); [|reflexivity].
    assert (Hs : Rs (skip (ch "F") (skip (ch "I") (skip (ch "E") s))) (skip (ch "F") (skip (ch "I") (skip (ch "E") s'))))
      by (repeat (apply Rs_skip; [reflexivity|]); assumption).
    destruct H as [|d d' s s' Hd H].
    - reflexivity.
    - rewrite (R_low _ _ _ low_digit Hd); one Hd; destruct (is_digit d); [reflexivity|].
      destruct Hs as [|x x' t t' Hx Ht]; [reflexivity|]. one Hx. reflexivity.
  Qed.
  Lemma Rs_pointer s s' : Rs s s' -> is_pointer_type s' = is_pointer_type s.
  Proof. intros H. unfold is_pointer_type. fst1 H. reflexivity. Qed.
  Lemma Rs_tag s s' : Rs s s' -> is_tag_type s' = is_tag_type s.
  Proof. intros H. unfold is_tag_type. fst1 H. reflexivity. Qed.
  Lemma Rs_array s s' : Rs s s' -> is_array_type s' = is_array_type s.
  Proof. intros H. unfold is_array_type. fst1 H. reflexivity. Qed.
  Lemma Rs_custom s s' : Rs s s' -> is_custom_type s' = is_custom_type s.
  Proof. intros H. unfold is_custom_type. fst1 H. reflexivity. Qed.
  Lemma Rs_function s s' : Rs s s' -> is_function_type s' = is_function_type s.
  Proof. intros H. unfold is_function_type. fst1 H. reflexivity. Qed.
  Lemma Rs_len s s' : Rs s s' -> length s' = length s.
  Proof. intros H. symmetry. apply (Rs_length _ _ _ H). Qed.
  Lemma Rs_byt s s' : Rs s s' -> str_bytes s' = str_bytes s.
  Proof. intros H. symmetry. apply (Rs_bytes _ _ _ HR _ _ H). Qed.

  (** ** States and results *)
  Definition mrel (m m' : mstring) : Prop := Rs (ms_str m) (ms_str m') /\ ms_chars m = ms_chars m'.
  Record srel (s s' : st) : Prop := {
    sr_ms : mrel (s_ms s) (s_ms s');
    sr_store : grel (s_store s) (s_store s');
    sr_fps : s_fps s = s_fps s';
    sr_names : s_names s = s_names s'
  }.
  Definition rr {A} (RA : A -> A -> Prop) (x y : res (A * st)) : Prop :=
    match x, y with
    | Ok (a, s), Ok (b, s') => RA a b /\ srel s s'
    | Err e, Err e' => e = e'
    | Panic, Panic => True
    | Fuel, Fuel => True
    | _, _ => False
    end.
  Definition rel {A} (RA : A -> A -> Prop) (m m' : M A) : Prop := forall s s', srel s s' -> rr RA (m s) (m' s').

  Lemma rel_bind {A B} (RA : A -> A -> Prop) (RB : B -> B -> Prop) (m m' : M A) (f f' : A -> M B) :
    rel RA m m' -> (forall a b, RA a b -> rel RB (f a) (f' b)) -> rel RB (bind m f) (bind m' f').
  Proof.
    intros Hm Hf s s' Hs. unfold bind. specialize (Hm s s' Hs).
    destruct (m s) as [[a s1]|e| |], (m' s') as [[b s2]|e'| |]; cbn [rr] in Hm |- *; try contradiction; try assumption.
    destruct Hm as [Hab Hs1]. apply (Hf a b Hab _ _ Hs1).
  Qed.
  Lemma rel_ret {A} (RA : A -> A -> Prop) a b : RA a b -> rel RA (ret a) (ret b).
  Proof. intros H s s' Hs. split; assumption. Qed.
  Lemma rel_fail {A} (RA : A -> A -> Prop) e : rel RA (fail e) (fail e).
  Proof. intros s s' Hs. reflexivity. Qed.
  Lemma rel_panic {A} (RA : A -> A -> Prop) : rel RA panic panic.
  Proof. intros s s' Hs. exact I. Qed.
  Lemma rel_nofuel {A} (RA : A -> A -> Prop) : rel RA nofuel nofuel.
  Proof. intros s s' Hs. exact I. Qed.
  Lemma rel_ok_or {A} (RA : A -> A -> Prop) o o' e : orel RA o o' -> rel RA (ok_or o e) (ok_or o' e).
  Proof. destruct o, o'; cbn; try contradiction; intros H; [apply rel_ret; assumption|apply rel_fail]. Qed.
  Lemma rel_ok_or_eq {A} (o : option A) e : rel eq (ok_or o e) (ok_or o e).
  Proof. apply rel_ok_or. destruct o; cbn; auto. Qed.
  Lemma rel_text : rel Rs text text.
  Proof. intros s s' Hs. split; [apply Hs|assumption]. Qed.
  Lemma rel_len_chars : rel eq len_chars len_chars.
  Proof. intros s s' Hs. split; [apply Hs|assumption]. Qed.
  Lemma rel_get : rel srel get get.
  Proof. intros s s' Hs. split; assumption. Qed.
  Lemma rel_put (f f' : st -> st) : (forall s s', srel s s' -> srel (f s) (f' s')) ->
    rel eq (fun s => Ok (tt, f s)) (fun s => Ok (tt, f' s)).
  Proof. intros H s s' Hs. split; [reflexivity|]. apply H; assumption. Qed.

  Definition mr {A} (RA : A -> A -> Prop) (x y : mres A) : Prop :=
    match x, y with
    | Ok (a, m), Ok (b, m') => orel RA a b /\ mrel m m'
    | Err e, Err e' => e = e'
    | Panic, Panic => True
    | Fuel, Fuel => True
    | _, _ => False
    end.
  Lemma rel_lift {A} (RA : A -> A -> Prop) (f f' : mstring -> mres A) :
    (forall m m', mrel m m' -> mr RA (f m) (f' m')) -> rel (orel RA) (lift f) (lift f').
  Proof.
    intros H s s' Hs. unfold lift. specialize (H _ _ (sr_ms _ _ Hs)).
    destruct (f (s_ms s)) as [[a m]|e| |], (f' (s_ms s')) as [[b m']|e'| |]; cbn [mr rr] in H |- *; try contradiction; try assumption.
    destruct H as [Ho Hm]. split; [assumption|]. destruct Hs. split; assumption.
  Qed.
  Lemma mr_drop {A} (RA : A -> A -> Prop) m m' r r' n a b : mrel m m' -> Rs r r' -> RA a b ->
    mr RA (match ms_drop m r n with Ok x => Ok (Some a, x) | Err e => Err e | Panic => Panic | Fuel => Fuel end)
          (match ms_drop m' r' n with Ok x => Ok (Some b, x) | Err e => Err e | Panic => Panic | Fuel => Fuel end).
  Proof.
    intros [_ Hc] Hr Hab. unfold ms_drop. rewrite <- Hc. destruct (n <=? ms_chars m); [|exact I].
    split; [exact Hab|]. split; [exact Hr|reflexivity].
  Qed.
  Lemma rel_try_consume : rel (orel R) (lift try_consume) (lift try_consume).
  Proof.
    apply rel_lift. intros m m' Hm. unfold try_consume. pose proof (proj1 Hm) as Ht.
    destruct Ht as [|c c' r r' Hc Hr]; [split; [exact I|exact Hm]|]. apply mr_drop; assumption.
  Qed.
  Lemma rel_eat_if f : low f -> rel (orel eq) (eat_if f) (eat_if f).
  Proof.
    intros Hf. apply rel_lift. intros m m' Hm. unfold try_consume_char_if. pose proof (proj1 Hm) as Ht.
    destruct Ht as [|c c' r r' Hc Hr]; [split; [exact I|exact Hm]|]. rewrite (R_low f _ _ Hf Hc).
    destruct (f c) eqn:Hfc; [|split; [exact I|exact Hm]].
    destruct (al_case _ _ _ HR _ _ Hc) as [<-|[H1 _]]; [apply mr_drop; auto|]. rewrite (Hf _ H1) in Hfc. discriminate.
  Qed.
  Lemma rel_n_bytes n : rel (orel Rs) (lift (try_consume_n_bytes n)) (lift (try_consume_n_bytes n)).
  Proof.
    apply rel_lift. intros m m' Hm. unfold try_consume_n_bytes. pose proof (Rs_split _ _ (proj1 Hm) n) as Hs.
    destruct (split_bytes n (ms_str m)) as [[a b]|], (split_bytes n (ms_str m')) as [[a' b']|]; cbn [orel fst snd] in Hs; try contradiction.
    - destruct Hs as [Ha Hb]. rewrite <- (Rs_length _ _ _ Ha). apply mr_drop; assumption.
    - split; [exact I|exact Hm].
  Qed.
  Definition pairR (x y : N * N) : Prop := R (fst x) (fst y) /\ R (snd x) (snd y).
  Lemma rel_2_chars : rel (orel pairR) (lift try_consume_2_chars) (lift try_consume_2_chars).
  Proof.
    apply rel_lift. intros m m' Hm. unfold try_consume_2_chars. pose proof (proj1 Hm) as Ht.
    destruct Ht as [|c c' r r' Hc Hr]; [split; [exact I|exact Hm]|].
    destruct Hr as [|d d' r r' Hd Hr]; [split; [exact I|exact Hm]|]. apply mr_drop; [assumption|assumption|split; assumption].
  Qed.
  Lemma rel_try_str p : forallb (fun x => (x <? 256)%N) p = true -> rel (orel eq) (lift (try_consume_str p)) (lift (try_consume_str p)).
  Proof.
    intros Hp. apply rel_lift. intros m m' Hm. unfold try_consume_str. pose proof (Rs_strip p Hp _ _ (proj1 Hm)) as Hs.
    destruct (strip_prefix p (ms_str m)), (strip_prefix p (ms_str m')); cbn in Hs; try contradiction.
    - apply mr_drop; auto.
    - split; [exact I|exact Hm].
  Qed.
  Lemma rel_next e : rel R (next_char e) (next_char e).
  Proof. eapply rel_bind; [apply rel_try_consume|]. intros. apply rel_ok_or. assumption. Qed.
  Lemma rel_eat c : (c <? 256)%N = true -> rel eq (eat_char c) (eat_char c).
  Proof.
    intros Hc. eapply rel_bind; [apply (rel_eat_if (fun x => (x =? c)%N)), low_eqb, Hc|]. intros a b H. apply rel_ret.
    destruct a, b; cbn in H; try contradiction; reflexivity.
  Qed.
  Lemma rel_eat_str p : forallb (fun x => (x <? 256)%N) p = true -> rel eq (eat_str p) (eat_str p).
  Proof.
    intros Hp. eapply rel_bind; [apply rel_try_str, Hp|]. intros a b H. apply rel_ret.
    destruct a, b; cbn in H; try contradiction; reflexivity.
  Qed.
  Lemma rel_expect c e : (c <? 256)%N = true -> rel eq (expect_char c e) (expect_char c e).
  Proof. intros Hc. eapply rel_bind; [apply rel_eat, Hc|]. intros a b <-. destruct a; [apply rel_ret; reflexivity|apply rel_fail]. Qed.
  Lemma rel_expect_str p e : forallb (fun x => (x <? 256)%N) p = true -> rel eq (expect_str p e) (expect_str p e).
  Proof. intros Hc. eapply rel_bind; [apply rel_eat_str, Hc|]. intros a b <-. destruct a; [apply rel_ret; reflexivity|apply rel_fail]. Qed.
  Lemma rel_eat_first l : forallb (forallb (fun x => (x <? 256)%N)) l = true -> rel eq (eat_first l) (eat_first l).
  Proof.
    induction l as [|p l IH]; intros Hl; cbn [eat_first]; [apply rel_ret; reflexivity|].
    cbn [forallb] in Hl. apply andb_prop in Hl. destruct Hl as [H1 H2].
    eapply rel_bind; [apply rel_eat_str, H1|]. intros a b <-. destruct a; [apply rel_ret; reflexivity|apply IH, H2].
  Qed.
  Lemma rel_intern n n' : nrel n n' -> rel eq (intern E n) (intern E' n').
  Proof.
    intros Hn s s' Hs. unfold intern. change (e_nodes E') with (e_nodes E). destruct Hs as [H1 H2 H3 H4].
    pose proof (F2_length _ _ _ H2) as Hlen. unfold store in *. rewrite <- Hlen. destruct (_ <? _)%N; [reflexivity|].
    split; [reflexivity|]. split; cbn; try assumption. apply Forall2_app; [assumption|]. constructor; [assumption|constructor].
  Qed.
  Lemma rel_res k h : rel nrel (res_ k h) (res_ k h).
  Proof.
    intros s s' Hs. unfold res_. pose proof (grel_resolve _ _ _ k h (sr_store _ _ Hs)) as H.
    destruct (resolve (s_store s) k h), (resolve (s_store s') k h); cbn in H; try contradiction; [|exact I].
    split; assumption.
  Qed.
  Lemma rel_modify k h f : (forall n n', nrel n n' -> nrel (f n) (f n')) -> rel eq (modify k h f) (modify k h f).
  Proof.
    intros Hf s s' Hs. unfold modify. pose proof (grel_resolve _ _ _ k h (sr_store _ _ Hs)) as H.
    destruct (resolve (s_store s) k h), (resolve (s_store s') k h); cbn in H; try contradiction; [|exact I].
    split; [reflexivity|]. destruct Hs. split; cbn; try assumption. apply grel_upd; auto.
  Qed.
  Lemma rel_run_w w w' b b' : relw w w' -> brel b b' -> rel brel (run_w w b) (run_w w' b').
  Proof.
    intros Hw Hb s s' Hs. unfold run_w. destruct (Hw b b' Hb) as [Heq Hbe].
    destruct (w b) as [c r], (w' b') as [c' r']. cbn [fst snd] in *. subst r'.
    destruct r as [[]|e| |]; cbn [rr]; auto.
  Qed.
  Lemma rel_take b b' : brel b b' -> rel Rs (take_text b) (take_text b').
  Proof.
    intros H. unfold take_text. destruct (brel_decode _ _ _ HR _ _ H) as (t & t' & -> & -> & Ht). apply rel_ret. assumption.
  Qed.
  Lemma rel_render w w' : (forall sg sg', grel sg sg' -> relw (w sg) (w' sg')) -> rel Rs (render w) (render w').
  Proof.
    intros Hw. unfold render. eapply rel_bind; [apply rel_get|]. intros s s' Hs.
    eapply rel_bind; [apply rel_run_w; [apply Hw, Hs|apply brel_nil]|]. intros b b' Hb. apply rel_take; assumption.
  Qed.

  Ltac nf := intros ? ? [? ?|? ? ? ?|? ? ? ?|? ? ? ? ? ?];
    [match goal with n : node |- _ => destruct n; cbn [plain] in *; try contradiction end | ..]; constructor; solve [exact I|assumption].
  Ltac lowt := solve [reflexivity | assumption | apply low_digit | apply low_one_of; reflexivity | apply low_eqb; reflexivity].
  Ltac nmk := solve [apply nr_plain; exact I | constructor; first [assumption | apply (Rs_lit _ _ _ HR); vm_compute; reflexivity]].
  Ltac fixr := repeat match goal with
    | H : R ?c ?c' |- context [(?c' =? ?k)%N] => rewrite (R_eqb _ _ _ HR c c' k H) by reflexivity
    | H : R ?c ?c' |- context [one_of ?l ?c'] => rewrite (R_low (one_of l) c c' (low_one_of l eq_refl) H)
    | H : R ?c ?c' |- context [is_digit ?c'] => rewrite (R_low is_digit c c' low_digit H)
    | H : R ?c ?c' |- context [lookup ?c' ?t] => rewrite (R_lookup c c' t eq_refl H)
    | H : Alike.Rs R ?s ?s' |- context [first_is is_digit ?s'] => rewrite (Rs_first_is is_digit s s' low_digit H)
    | H : Alike.Rs R ?s ?s' |- context [first_is (one_of ?l) ?s'] => rewrite (Rs_first_is (one_of l) s s' (low_one_of l eq_refl) H)
    | H : Alike.Rs R ?s ?s' |- context [starts_with ?p ?s'] => rewrite (Rs_starts p s s' eq_refl H)
    | H : Alike.Rs R ?s ?s' |- context [is_empty ?s'] => rewrite (Rs_empty s s' H)
    | H : Alike.Rs R ?s ?s' |- context [length ?s'] => rewrite (Rs_len s s' H)
    | H : Alike.Rs R ?s ?s' |- context [str_bytes ?s'] => rewrite (Rs_byt s s' H)
    | H : Alike.Rs R ?s ?s' |- context [find_char ?x ?s'] => rewrite (Rs_find x s s' eq_refl H)
    | H : Alike.Rs R ?s ?s' |- context [local_scope_pattern ?s'] => rewrite (Rs_scope s s' H)
    | H : Alike.Rs R ?s ?s' |- context [is_member_pointer ?s'] => rewrite (Rs_member s s' H)
    | H : Alike.Rs R ?s ?s' |- context [is_pointer_type ?s'] => rewrite (Rs_pointer s s' H)
    | H : Alike.Rs R ?s ?s' |- context [is_tag_type ?s'] => rewrite (Rs_tag s s' H)
    | H : Alike.Rs R ?s ?s' |- context [is_array_type ?s'] => rewrite (Rs_array s s' H)
    | H : Alike.Rs R ?s ?s' |- context [is_custom_type ?s'] => rewrite (Rs_custom s s' H)
    | H : Alike.Rs R ?s ?s' |- context [is_function_type ?s'] => rewrite (Rs_function s s' H)
    end.
  Ltac leaf :=
    match goal with
    | |- rel _ (next_char _) _ => apply rel_next
    | |- rel _ (eat_char _) _ => apply rel_eat; reflexivity
    | |- rel _ (eat_str _) _ => apply rel_eat_str; solve [reflexivity | destruct_if]
    | |- rel _ (expect_char _ _) _ => apply rel_expect; reflexivity
    | |- rel _ (expect_str _ _) _ => apply rel_expect_str; reflexivity
    | |- rel _ (eat_if _) _ => apply rel_eat_if; lowt
    | |- rel _ text _ => apply rel_text
    | |- rel _ len_chars _ => apply rel_len_chars
    | |- rel _ get _ => apply rel_get
    | |- rel _ (lift (try_consume_n_bytes _)) _ => apply rel_n_bytes
    | |- rel _ (lift try_consume_2_chars) _ => apply rel_2_chars
    | |- rel _ (res_ _ _) _ => apply rel_res
    | |- rel _ (modify _ _ _) _ => apply rel_modify; solve [nf]
    | |- rel _ (intern _ _) _ => apply rel_intern; nmk
    | |- rel _ (fail _) _ => apply rel_fail
    | |- rel _ panic _ => apply rel_panic
    | |- rel _ nofuel _ => apply rel_nofuel
    | |- rel _ (ok_or ?o _) (ok_or ?o _) => apply rel_ok_or_eq
    | |- rel _ (ok_or _ _) _ => apply rel_ok_or; eassumption
    | |- rel _ (ret _) (ret _) => apply rel_ret; solve [reflexivity | assumption]
    | |- rel _ _ _ => solve [eauto 2 with alk]
    end
  with destruct_if := match goal with |- context [if ?b then _ else _] => destruct b; reflexivity end.
  Ltac post H :=
    lazymatch type of H with
    | _ = _ => subst
    | orel _ ?a ?b => destruct a, b; cbn [orel] in H; try contradiction; try subst
    | Alike.nrel _ ?n ?n' =>
        let m := fresh "m" in
        destruct H as [m ?|? ? ? ?|? ? ? ?|? ? ? ? ? ?]; [destruct m; cbn [plain] in *; try contradiction|..]
    | _ => idtac
    end.
  Ltac rl1 :=
    cbv beta iota;
    match goal with
    | |- rel _ (bind (ok_or None _) _) (bind (ok_or None _) _) =>
        apply (rel_bind (fun _ _ => False)); [apply rel_ok_or; exact I|intros ? ? []]
    | |- _ => leaf
    | |- rel _ (bind _ _) (bind _ _) =>
        let H := fresh "Ha" in
        first [eapply rel_bind; [leaf|intros ? ? H; post H; fixr] 
        | lazymatch goal with |- rel _ (bind (render _) _) _ => fail | _ => idtac end; eapply (rel_bind eq); [|intros ? ? H; post H; fixr]]
    | |- rel _ (if ?b then _ else _) (if ?b then _ else _) => destruct b
    | |- rel _ (match ?x with _ => _ end) (match ?x with _ => _ end) => destruct x
    end.
  Ltac rl := repeat rl1.

  Lemma rel_memorize_string nm nm' : Rs nm nm' -> rel eq (memorize_string E nm) (memorize_string E' nm').
  Proof.
    intros Hn. unfold memorize_string. eapply rel_bind; [apply rel_get|]. intros s s' Hs.
    rewrite <- (sr_names _ _ Hs). destruct (10 <=? _); [apply rel_ret; reflexivity|].
    assert (Hr : forall l, rel (Forall2 Rs) (resolve_names l) (resolve_names l)).
    { induction l as [|h l IH]; cbn [resolve_names]; [apply rel_ret; constructor|].
      eapply rel_bind; [apply rel_res|]. intros n n' H. destruct H as [m Hm| | |]; [destruct m; try contradiction|..]; try apply rel_panic.
      eapply rel_bind; [apply IH|]. intros a b Hab. apply rel_ret. constructor; assumption. }
    eapply rel_bind; [apply Hr|]. intros k k' Hk.
    assert (He : existsb (str_eqb nm) k = existsb (str_eqb nm') k').
    { induction Hk; cbn; [reflexivity|]. rewrite (Rs_eqb _ _ _ HR _ _ Hn _ _ H), IHHk. reflexivity. }
    rewrite <- He. destruct (existsb _ k); [apply rel_ret; reflexivity|].
    eapply rel_bind; [apply rel_intern; constructor; assumption|]. intros h h' <-.
    apply rel_put. intros t t' [H1 H2 H3 H4]. split; cbn; try assumption. rewrite H4. reflexivity.
  Qed.
  Hint Resolve rel_memorize_string : alk.
  Lemma rel_memorize_identifier id : rel eq (memorize_identifier E id) (memorize_identifier E' id).
  Proof.
    unfold memorize_identifier. eapply rel_bind; [apply rel_render; intros; apply relw_output; assumption|].
    intros. apply rel_memorize_string. assumption.
  Qed.
  Hint Resolve rel_memorize_identifier : alk.

  (** ** Lexical functions *)
  Lemma rel_ext : rel eq pointer_ext_qualifiers pointer_ext_qualifiers.
  Proof. unfold pointer_ext_qualifiers. rl. Qed.
  Lemma rel_number_loop fuel : forall c c' n, R c c' -> rel eq (number_loop fuel c n) (number_loop fuel c' n).
  Proof.
    induction fuel as [|fuel IH]; intros c c' n Hc; cbn [number_loop]; [apply rel_nofuel|]. fixr.
    rewrite (R_low _ _ _ low_rebased Hc). destruct (c =? ch "@")%N; [rl|]. destruct (is_rebased c) eqn:Hr; [|rl].
    destruct (al_case _ _ _ HR _ _ Hc) as [<-|[H1 _]]; [|rewrite (low_rebased _ H1) in Hr; discriminate].
    cbv zeta. destruct (_ <? _)%N; [|rl]. eapply rel_bind; [apply rel_next|]. intros. apply IH. assumption.
  Qed.
  Lemma rel_number : rel eq demangle_number demangle_number.
  Proof.
    unfold demangle_number. eapply rel_bind; [leaf|]. intros a b <-. eapply rel_bind; [leaf|]. intros c c' Hc. fixr.
    destruct (is_digit c) eqn:Hd.
    - destruct (al_case _ _ _ HR _ _ Hc) as [<-|[H1 _]]; [|rewrite (low_digit _ H1) in Hd; discriminate]. rl.
    - eapply rel_bind; [leaf|]. intros s s' Hs. fixr. eapply rel_bind; [apply rel_number_loop; assumption|]. intros n n' <-. rl.
  Qed.
  Hint Resolve rel_ext rel_number : alk.
  Lemma rel_unsigned : rel eq demangle_unsigned demangle_unsigned.
  Proof. unfold demangle_unsigned. rl. Qed.
  Lemma rel_signed : rel eq demangle_signed demangle_signed.
  Proof. unfold demangle_signed. rl. Qed.
  Lemma rel_to_u32 n e : rel eq (to_u32 n e) (to_u32 n e).
  Proof. unfold to_u32. rl. Qed.
  Lemma rel_to_i32 n e : rel eq (to_i32 n e) (to_i32 n e).
  Proof. unfold to_i32. rl. Qed.
  Lemma rel_qualifiers : rel eq demangle_qualifiers demangle_qualifiers.
  Proof. unfold demangle_qualifiers. rl. Qed.
  Lemma rel_cv : rel eq demangle_pointer_cv_qualifiers demangle_pointer_cv_qualifiers.
  Proof. unfold demangle_pointer_cv_qualifiers. rl. Qed.
  Lemma rel_ref : rel eq demangle_function_ref_qualifier demangle_function_ref_qualifier.
  Proof. unfold demangle_function_ref_qualifier. rl. Qed.
  Lemma rel_cc : rel eq demangle_calling_convention demangle_calling_convention.
  Proof. unfold demangle_calling_convention. rl. Qed.
  Lemma rel_storage : rel eq demangle_variable_storage_class demangle_variable_storage_class.
  Proof. unfold demangle_variable_storage_class. rl. Qed.
  Lemma rel_throw : rel eq demangle_throw_specification demangle_throw_specification.
  Proof. unfold demangle_throw_specification. rl. Qed.
  Lemma rel_fclass : rel eq demangle_function_class demangle_function_class.
  Proof. unfold demangle_function_class. rl. Qed.
  Lemma rel_prim_kind : rel eq demangle_primitive_kind demangle_primitive_kind.
  Proof. unfold demangle_primitive_kind. rl. Qed.
  Hint Resolve rel_unsigned rel_signed rel_to_u32 rel_to_i32 rel_qualifiers rel_cv rel_ref rel_cc rel_storage rel_throw
    rel_fclass rel_prim_kind : alk.
  Lemma rel_prim : rel eq (demangle_primitive_type E) (demangle_primitive_type E').
  Proof. unfold demangle_primitive_type. rl. Qed.
  Hint Resolve rel_prim : alk.
  Lemma R_rebased c c' : R c c' -> rebased_to_number c' = rebased_to_number c.
  Proof.
    intros H. destruct (al_case _ _ _ HR _ _ H) as [<-|[H1 H2]]; [reflexivity|].
    unfold rebased_to_number. rewrite !low_rebased by assumption. reflexivity.
  Qed.
  Lemma rel_char_literal : rel eq demangle_char_literal demangle_char_literal.
  Proof.
    unfold demangle_char_literal. eapply rel_bind; [leaf|]. intros c c' Hc. fixr.
    destruct (c =? ch "?")%N.
    - eapply rel_bind; [leaf|]. intros d d' Hd. fixr. destruct (d =? ch "$")%N.
      + eapply rel_bind; [leaf|]. intros o o' Ho. eapply rel_bind; [apply rel_ok_or; exact Ho|]. intros [x y] [x' y'] [Hx Hy].
        cbn [fst snd] in Hx, Hy. rewrite (R_rebased _ _ Hx), (R_rebased _ _ Hy). rl.
      + destruct (al_case _ _ _ HR _ _ Hd) as [<-|[H1 H2]]; [rl|].
        rewrite low_digit, !low_lower, !low_upper by assumption. rl.
    - destruct (al_case _ _ _ HR _ _ Hc) as [<-|[H1 H2]]; [rl|].
      destruct (N.ltb_spec c 256), (N.ltb_spec c' 256); try lia. rl.
  Qed.
  Hint Resolve rel_char_literal : alk.
  Lemma rel_wchar_literal : rel eq demangle_wchar_literal demangle_wchar_literal.
  Proof. unfold demangle_wchar_literal. rl. Qed.
  Hint Resolve rel_wchar_literal : alk.
  Lemma rel_consume_special t : forallb (fun p => forallb (fun x => (x <? 256)%N) (fst p)) t = true ->
    rel eq (consume_special t) (consume_special t).
  Proof.
    induction t as [|[p k] t IH]; intros Ht; cbn [consume_special]; [rl|]. cbn [forallb fst] in Ht.
    apply andb_prop in Ht. destruct Ht as [H1 H2]. eapply rel_bind; [apply rel_eat_str, H1|]. intros a b <-.
    destruct a; [rl|apply IH, H2].
  Qed.
  Lemma rel_translate c c' g : R c c' -> rel eq (translate_intrinsic c g) (translate_intrinsic c' g).
  Proof.
    intros Hc. unfold translate_intrinsic. destruct (al_case _ _ _ HR _ _ Hc) as [<-|[H1 H2]]; [cbv zeta; rl|].
    rewrite !low_digit, !low_upper by assumption. cbn [orb]. rl.
  Qed.
  Hint Resolve rel_translate : alk.

  (** ** The grammar functions *)
  Section Knot.
    Variables K K' : knot.
    Hypothesis HKp : rel eq (k_parse K) (k_parse K').
    Hypothesis HKt : forall m, rel eq (k_type K m) (k_type K' m).
    Hypothesis HKi : forall b, rel eq (k_tinst K b) (k_tinst K' b).
    Hint Resolve HKp HKt HKi : alk.

    Lemma rel_simple_string m : rel Rs (demangle_simple_string E m) (demangle_simple_string E' m).
    Proof. unfold demangle_simple_string. rl. Qed.
    Hint Resolve rel_simple_string : alk.
    Lemma rel_simple_name m : rel eq (demangle_simple_name E m) (demangle_simple_name E' m).
    Proof. unfold demangle_simple_name. rl. Qed.
    Lemma rel_backref : rel eq demangle_back_ref_name demangle_back_ref_name.
    Proof.
      unfold demangle_back_ref_name. eapply rel_bind; [leaf|]. intros o o' Ho. eapply rel_bind; [leaf|].
      intros c c' <-. eapply rel_bind; [leaf|]. intros s s' Hs. rewrite (sr_names _ _ Hs). leaf.
    Qed.
    Hint Resolve rel_simple_name rel_backref : alk.
    Lemma rel_anonymous : rel eq (demangle_anonymous_namespace_name E) (demangle_anonymous_namespace_name E').
    Proof. unfold demangle_anonymous_namespace_name. rl. Qed.
    Lemma rel_locally : rel eq (demangle_locally_scoped_name_piece E K) (demangle_locally_scoped_name_piece E' K').
    Proof.
      unfold demangle_locally_scoped_name_piece. rl. apply (rel_bind Rs); [|intros nm nm' Hn; leaf].
      apply rel_render. intros sg sg' Hg. apply relw_seq; [apply (relw_lit _ _ _ HR); reflexivity|].
      apply relw_seq; [apply relw_output; assumption|]. apply (relw_str _ _ _ HR).
      apply Rs_app; [apply (Rs_lit _ _ _ HR); reflexivity|]. apply Rs_app; [apply (Rs_dec_N _ _ _ HR)|apply (Rs_lit _ _ _ HR); reflexivity].
    Qed.
    Hint Resolve rel_anonymous rel_locally : alk.
    Lemma rel_piece : rel eq (demangle_name_scope_piece E K) (demangle_name_scope_piece E' K').
    Proof. unfold demangle_name_scope_piece. rl. Qed.
    Hint Resolve rel_piece : alk.
    Lemma rel_scope_loop fuel : forall acc, rel eq (scope_loop E K fuel acc) (scope_loop E' K' fuel acc).
    Proof. induction fuel; intros; cbn [scope_loop]; rl. Qed.
    Hint Resolve rel_scope_loop : alk.
    Lemma rel_chain id : rel eq (demangle_name_scope_chain E K id) (demangle_name_scope_chain E' K' id).
    Proof. unfold demangle_name_scope_chain. rl. Qed.
    Hint Resolve rel_chain : alk.
    Lemma rel_code_group g : rel eq (demangle_function_identifier_code_group E g) (demangle_function_identifier_code_group E' g).
    Proof. unfold demangle_function_identifier_code_group. eapply rel_bind; [leaf|]. intros c c' Hc. cbv zeta. fixr. destruct g; rl. Qed.
    Hint Resolve rel_code_group : alk.
    Lemma rel_code : rel eq (demangle_function_identifier_code E) (demangle_function_identifier_code E').
    Proof. unfold demangle_function_identifier_code. rl. Qed.
    Hint Resolve rel_code : alk.
    Lemma rel_unq_type m : rel eq (demangle_unqualified_type_name E K m) (demangle_unqualified_type_name E' K' m).
    Proof. unfold demangle_unqualified_type_name. rl. Qed.
    Lemma rel_unq_sym b : rel eq (demangle_unqualified_symbol_name E K b) (demangle_unqualified_symbol_name E' K' b).
    Proof. unfold demangle_unqualified_symbol_name. rl. Qed.
    Hint Resolve rel_unq_type rel_unq_sym : alk.
    Lemma rel_fq_type : rel eq (demangle_fully_qualified_type_name E K) (demangle_fully_qualified_type_name E' K').
    Proof. unfold demangle_fully_qualified_type_name. rl. Qed.
    Lemma nrel_ident n n' : nrel n n' -> is_ident n' = is_ident n.
    Proof. destruct 1; reflexivity. Qed.
    Lemma rel_fq_sym : rel eq (demangle_fully_qualified_symbol_name E K) (demangle_fully_qualified_symbol_name E' K').
    Proof. unfold demangle_fully_qualified_symbol_name. rl; cbn [is_ident]; rl. Qed.
    Hint Resolve rel_fq_type rel_fq_sym : alk.
    Lemma rel_custom : rel eq (demangle_custom_type E K) (demangle_custom_type E' K').
    Proof. unfold demangle_custom_type. rl. Qed.
    Lemma rel_class : rel eq (demangle_class_type E K) (demangle_class_type E' K').
    Proof. unfold demangle_class_type. rl. Qed.
    Lemma rel_params_loop fuel : forall acc, rel eq (params_loop K fuel acc) (params_loop K' fuel acc).
    Proof.
      induction fuel as [|fuel IH]; intros; cbn [params_loop]; [leaf|]. eapply rel_bind; [leaf|]. intros s s' Hs. fixr.
      rl1; [rl|]. rl1; [rl|]. eapply rel_bind; [leaf|]. intros o o' Ho. destruct o as [d|], o' as [d'|]; cbn in Ho; try contradiction.
      - subst d'. eapply rel_bind; [leaf|]. intros t t' Ht. rewrite (sr_fps _ _ Ht). rl.
      - rl. apply rel_put. intros t t' [H1 H2 H3 H4]. rewrite H3. destruct (_ <? _); split; cbn; first [assumption|reflexivity].
    Qed.
    Hint Resolve rel_custom rel_class rel_params_loop : alk.
    Lemma rel_params : rel eq (demangle_function_parameter_list E K) (demangle_function_parameter_list E' K').
    Proof. unfold demangle_function_parameter_list. rl. Qed.
    Hint Resolve rel_params : alk.
    Lemma rel_function_type b : rel eq (demangle_function_type E K b) (demangle_function_type E' K' b).
    Proof. unfold demangle_function_type. rl. Qed.
    Hint Resolve rel_function_type : alk.
    Lemma rel_pointer : rel eq (demangle_pointer_type E K) (demangle_pointer_type E' K').
    Proof. unfold demangle_pointer_type. rl. Qed.
    Lemma rel_member_pointer : rel eq (demangle_member_pointer_type E K) (demangle_member_pointer_type E' K').
    Proof. unfold demangle_member_pointer_type. rl. Qed.
    Lemma rel_dims fuel : forall rank acc, rel eq (dims_loop E fuel rank acc) (dims_loop E' fuel rank acc).
    Proof. induction fuel; intros; cbn [dims_loop]; rl. Qed.
    Hint Resolve rel_pointer rel_member_pointer rel_dims : alk.
    Lemma rel_array : rel eq (demangle_array_type E K) (demangle_array_type E' K').
    Proof. unfold demangle_array_type. rl. Qed.
    Hint Resolve rel_array : alk.
    Lemma rel_type m : rel eq (demangle_type E K m) (demangle_type E' K' m).
    Proof. unfold demangle_type. rl. Qed.
    Lemma rel_uq qn : rel eq (unqualified_identifier qn) (unqualified_identifier qn).
    Proof. unfold unqualified_identifier. rl. Qed.
    Hint Resolve rel_uq : alk.
    Lemma rel_template_symbol : rel eq (template_symbol E K) (template_symbol E' K').
    Proof. unfold template_symbol. rl; cbn [sym_name]; rl. Qed.
    Hint Resolve rel_template_symbol : alk.
    Lemma rel_offsets n : rel eq (read_offsets n) (read_offsets n).
    Proof. induction n; cbn [read_offsets]; rl. Qed.
    Hint Resolve rel_offsets : alk.
    Lemma rel_first_if (b : bool) l l' : forallb (forallb (fun x => (x <? 256)%N)) l = true -> forallb (forallb (fun x => (x <? 256)%N)) l' = true ->
      rel eq (eat_first (if b then l else l')) (eat_first (if b then l else l')).
    Proof. destruct b; intros; apply rel_eat_first; assumption. Qed.
    Lemma rel_template_arg : rel eq (template_arg E K) (template_arg E' K').
    Proof.
      unfold template_arg. do 2 rl1; [rl1; rl|]. do 3 (rl1; rl1; [rl|]).
      eapply rel_bind; [apply rel_first_if; reflexivity|]. intros o o' <-. destruct o as [p|]; [rl|].
      rl1. rl1; [rl|]. eapply rel_bind; [apply rel_first_if; reflexivity|]. intros o o' <-. destruct o as [p|]; rl.
    Qed.
    Hint Resolve rel_template_arg : alk.
    Lemma rel_targs fuel : forall acc, rel eq (targs_loop E K fuel acc) (targs_loop E' K' fuel acc).
    Proof.
      induction fuel as [|fuel IH]; intros acc; cbn [targs_loop]; [leaf|]. rl1. rl1; [rl|].
      eapply rel_bind; [apply rel_eat_first; reflexivity|]. intros o o' <-. destruct o as [p|]; rl.
    Qed.
    Hint Resolve rel_targs : alk.
    Lemma rel_template_list : rel eq (demangle_template_parameter_list E K) (demangle_template_parameter_list E' K').
    Proof. unfold demangle_template_parameter_list. rl. Qed.
    Hint Resolve rel_template_list : alk.
    Lemma rel_tinst b : rel eq (demangle_template_instantiation_name E K b) (demangle_template_instantiation_name E' K' b).
    Proof.
      unfold demangle_template_instantiation_name. rl1. eapply rel_bind; [leaf|]. intros o o' Ho.
      eapply rel_bind; [apply rel_put; intros t t' [H1 H2 H3 H4]; split; try assumption; reflexivity|]. intros u u' <-.
      do 3 rl1. eapply rel_bind.
      { apply rel_put. intros t t' [H1 H2 H3 H4]. split; cbn; try assumption; apply Ho. }
      intros v v' <-. rl; cbn [is_conv_or_structor]; rl.
    Qed.
    Lemma rel_variable_encoding sc : rel eq (demangle_variable_encoding E K sc) (demangle_variable_encoding E' K' sc).
    Proof. unfold demangle_variable_encoding. rl. Qed.
    Lemma rel_this_adjust fc : rel eq (this_adjust fc) (this_adjust fc).
    Proof. unfold this_adjust. rl. Qed.
    Hint Resolve rel_variable_encoding rel_this_adjust : alk.
    Lemma rel_function_encoding : rel eq (demangle_function_encoding E K) (demangle_function_encoding E' K').
    Proof. unfold demangle_function_encoding. cbv zeta. rl. Qed.
    Hint Resolve rel_function_encoding : alk.
    Lemma rel_encoded q : rel eq (demangle_encoded_symbol E K q) (demangle_encoded_symbol E' K' q).
    Proof.
      unfold demangle_encoded_symbol. eapply rel_bind; [leaf|]. intros s s' Hs.
      eapply rel_bind; [apply rel_ok_or, Rs_first, Hs|]. intros c c' Hc. fixr. rl.
    Qed.
    Hint Resolve rel_encoded : alk.
    Lemma rel_declarator : rel eq (demangle_declarator E K) (demangle_declarator E' K').
    Proof. unfold demangle_declarator. rl. Qed.
    Hint Resolve rel_declarator : alk.
    Lemma rel_synth_id id : rel eq (synthesize_from_id E id) (synthesize_from_id E' id).
    Proof. unfold synthesize_from_id. rl. Qed.
    Hint Resolve rel_synth_id : alk.
    Lemma rel_synth_name nm nm' : Rs nm nm' -> rel eq (synthesize_from_name E nm) (synthesize_from_name E' nm').
    Proof. intros H. unfold synthesize_from_name. rl. Qed.
    Lemma rel_special_table k : rel eq (demangle_special_table_symbol_node E K k) (demangle_special_table_symbol_node E' K' k).
    Proof. 
      unfold demangle_special_table_symbol_node. apply (rel_bind Rs); [|intros a b Hab; rl].
      destruct k; try apply rel_fail; apply rel_ret, (Rs_lit _ _ _ HR); reflexivity.
    Qed.
    Lemma rel_lsg th : rel eq (demangle_local_static_guard E K th) (demangle_local_static_guard E' K' th).
    Proof. unfold demangle_local_static_guard. rl. Qed.
    Lemma rel_untyped nm : Rs nm nm -> rel eq (demangle_untyped_variable E K nm) (demangle_untyped_variable E' K' nm).
    Proof. intros H. unfold demangle_untyped_variable. rl. Qed.
    Lemma rel_rtti_bcd : rel eq (demangle_rtti_base_class_descriptor_node E K) (demangle_rtti_base_class_descriptor_node E' K').
    Proof. unfold demangle_rtti_base_class_descriptor_node. rl. Qed.
    Lemma rel_init_fini d : rel eq (demangle_init_fini_stub E K d) (demangle_init_fini_stub E' K' d).
    Proof. unfold demangle_init_fini_stub. rl. Qed.
    Lemma rel_vcall : rel eq (demangle_vcall_thunk_node E K) (demangle_vcall_thunk_node E' K').
    Proof. unfold demangle_vcall_thunk_node. rl. Qed.
    Lemma rel_rtti_td : rel eq (rtti_type_descriptor E K) (rtti_type_descriptor E' K').
    Proof.
      unfold rtti_type_descriptor. do 4 rl1; [|rl]. eapply rel_bind; [apply rel_synth_name, (Rs_lit _ _ _ HR); reflexivity|].
      intros v v' <-. rl.
    Qed.
    Lemma rel_md5 : rel eq (demangle_md5_name E) (demangle_md5_name E').
    Proof.
      unfold demangle_md5_name. eapply rel_bind; [leaf|]. intros c c' Hc. do 2 rl1.
      rl1. eapply rel_bind; [leaf|]. intros o o' Ho. apply (rel_bind (fun _ _ => True)).
      { destruct o, o'; cbn [orel] in Ho; try contradiction; apply rel_ok_or; exact I. }
      intros _ _ _. eapply rel_bind; [leaf|]. intros r4 r4' <-. cbv zeta.
      match goal with |- context [split_bytes ?n c] => pose proof (Rs_split _ _ Hc n) as Hs end.
      destruct (split_bytes _ c) as [[x y]|], (split_bytes _ c') as [[x' y']|]; cbn [orel fst snd] in Hs; try contradiction; [|leaf].
      eapply rel_bind; [apply rel_synth_name; apply Hs|]. intros v v' <-. leaf.
    Qed.
    Lemma rel_typeinfo : rel eq (demangle_typeinfo_name E K) (demangle_typeinfo_name E' K').
    Proof. unfold demangle_typeinfo_name. rl. Qed.
    Lemma escaped_char_print c : print_str (escaped_char c).
    Proof.
      unfold escaped_char. destruct (lookup c escape_table) as [s|] eqn:Hl.
      - unfold escape_table in Hl. cbn [lookup] in Hl.
        repeat (destruct (_ =? _)%N; [injection Hl as <-; repeat constructor; discriminate|]). discriminate.
      - destruct (in_range 0x20 0x7E c) eqn:Hr.
        + apply andb_prop in Hr. destruct Hr as [H1 H2]. apply N.leb_le in H1, H2. repeat constructor; assumption.
        + apply Forall_app. split; [repeat constructor; discriminate|].
          eapply Forall_impl; [|apply hex2_N_correct]. intros x Hx. cbv beta in Hx. unfold is_digit, in_range in *.
          apply orb_prop in Hx. destruct Hx as [Hx|Hx]; apply andb_prop in Hx; destruct Hx as [H1 H2]; apply N.leb_le in H1, H2.
          * change (ch "0") with 48%N in *. change (ch "9") with 57%N in *. lia.
          * change (ch "A") with 65%N in *. change (ch "F") with 70%N in *. lia.
    Qed.
    Lemma relw_escaped (c : bool) w : relw (w_if c (w_str E (escaped_char w))) (w_if c (w_str E' (escaped_char w))).
    Proof. apply relw_if. intros _. apply (relw_str _ _ _ HR), (Rs_print _ _ _ HR), escaped_char_print. Qed.
    Lemma rel_wide fuel : forall len tr ob ob', brel ob ob' -> rel brel (wide_loop E fuel len tr ob) (wide_loop E' fuel len tr ob').
    Proof.
      induction fuel as [|fuel IH]; intros len tr ob ob' Hb; cbn [wide_loop]; [leaf|].
      rl1. rl1; [leaf|]. eapply rel_bind; [leaf|]. intros t t' Ht. fixr. rl1; [leaf|]. rl1.
      eapply rel_bind; [apply rel_run_w; [apply relw_escaped|exact Hb]|]. intros x x' Hx. apply IH. exact Hx.
    Qed.
    Lemma rel_narrow_loop fuel : forall acc, rel eq (narrow_loop fuel acc) (narrow_loop fuel acc).
    Proof. induction fuel as [|fuel IH]; intros acc; cbn [narrow_loop]; rl. Qed.
    Lemma rel_narrow_out bytes sz num tr count : forall i ob ob', brel ob ob' ->
      rel brel (narrow_out E bytes sz num i count tr ob) (narrow_out E' bytes sz num i count tr ob').
    Proof.
      induction count as [|count IH]; intros i ob ob' Hb; cbn [narrow_out]; [leaf|].
      rl1. eapply rel_bind; [apply rel_run_w; [apply relw_escaped|exact Hb]|]. intros x x' Hx. apply IH. exact Hx.
    Qed.
    Definition triple_rel (x y : buf * char_kind * bool) : Prop :=
      brel (fst (fst x)) (fst (fst y)) /\ snd (fst x) = snd (fst y) /\ snd x = snd y.
    Hint Resolve rel_narrow_loop : alk.
    Lemma rel_string_literal : rel eq (demangle_string_literal E) (demangle_string_literal E').
    Proof.
      unfold demangle_string_literal. rl1. eapply rel_bind; [leaf|]. intros f f' Hf. fixr.
      apply (rel_bind eq); [rl|]. intros iw iw' <-. apply (rel_bind eq); [leaf|]. intros [len neg] ? <-. rl1; [leaf|].
      eapply rel_bind; [leaf|]. intros t t' Ht. fixr. apply (rel_bind eq); [leaf|]. intros crc crc' <-.
      eapply rel_bind; [leaf|]. intros o o' Ho. apply (rel_bind (fun _ _ => True)).
      { destruct o, o'; cbn [orel] in Ho; try contradiction; apply rel_ok_or; exact I. }
      intros _ _ _. eapply rel_bind; [leaf|]. intros u u' Hu. fixr. rl1; [leaf|]. apply (rel_bind triple_rel).
      - destruct iw; cbv zeta.
        + eapply rel_bind; [apply rel_wide; apply brel_nil|]. intros x x' Hx. apply rel_ret. repeat split; assumption.
        + apply (rel_bind eq); [leaf|]. intros bytes ? <-. apply (rel_bind eq); [leaf|]. intros sz ? <-.
          apply (rel_bind eq); [rl|]. intros k ? <-.
          eapply rel_bind; [apply rel_narrow_out; apply brel_nil|]. intros x x' Hx. apply rel_ret. repeat split; assumption.
      - intros [[x k] tr] [[x' k'] tr'] (Hx & Hk & Ht'). cbn [fst snd] in *. subst.
        eapply rel_bind; [apply rel_take; exact Hx|]. intros y y' Hy. apply rel_intern. constructor. exact Hy.
    Qed.
    Hint Resolve rel_special_table rel_lsg rel_rtti_bcd rel_init_fini rel_vcall rel_rtti_td
      rel_md5 rel_typeinfo rel_string_literal : alk.
    Lemma rel_special_intrinsic : rel eq (demangle_special_intrinsic E K) (demangle_special_intrinsic E' K').
    Proof.
      unfold demangle_special_intrinsic. apply (rel_bind eq); [apply rel_consume_special; reflexivity|]. intros o o' <-.
      destruct o as [k|]; [|leaf]. apply (rel_bind eq); [|intros h h' <-; leaf].
      destruct k; try leaf; apply rel_untyped, (Rs_lit _ _ _ HR); reflexivity.
    Qed.
    Hint Resolve rel_special_intrinsic : alk.
    Lemma rel_do_parse : rel eq (do_parse E K) (do_parse E' K').
    Proof. unfold do_parse. rl. Qed.
  End Knot.

  Lemma rel_knot fuel : rel eq (k_parse (knot_of E fuel)) (k_parse (knot_of E' fuel)) /\
    (forall m, rel eq (k_type (knot_of E fuel) m) (k_type (knot_of E' fuel) m)) /\
    forall b, rel eq (k_tinst (knot_of E fuel) b) (k_tinst (knot_of E' fuel) b).
  Proof.
    induction fuel as [|fuel (H1 & H2 & H3)]; [repeat split; intros; apply rel_nofuel|].
    cbn [knot_of k_parse k_type k_tinst]. split; [|split].
    - apply rel_do_parse; assumption.
    - intros. apply rel_type; assumption.
    - intros. apply rel_tinst; assumption.
  Qed.
  Lemma rel_parse s s' : Rs s s' -> rr eq (parse E s) (parse E' s').
  Proof.
    intros H. unfold parse, parse_with. rewrite (Rs_len _ _ H). apply rel_knot.
    unfold init_st, ms_new. split; cbn; try reflexivity; [|constructor]. split; cbn; [assumption|].
    symmetry. apply Rs_len. assumption.
  Qed.
End AlikeParse.
