(** Appending text after an accepted symbol: two runs of the parser, the second on a longer
    text.  [pst k c m m']: whenever [m] succeeds it has consumed a prefix of "size" [c], and if
    what is left has "size" [k] then [m'] does the same on the longer text.  Sizes: 0 anything,
    1 not empty, 2 contains an at-sign.  Proof infrastructure; the statements are in Trailing.v. *)
From Verif Require Import Parser Utf8 Lex ParseOk.

Definition has (k : nat) (t : str) : Prop :=
  match k with 0 => True | 1 => t <> [] | _ => In (ch "@") t end.
Lemma has_le k j t : j <= k -> has k t -> has j t.
Proof.
  destruct k as [|[|k]], j as [|[|j]]; cbn; intros; try lia; try exact I; auto.
  intros ->. contradiction.
Qed.
Lemma has_app_l k a b : has k a -> has k (a ++ b).
Proof.
  destruct k as [|[|k]]; cbn; auto.
  - intros H E. apply app_eq_nil in E. tauto.
  - intros H. apply in_or_app. auto.
Qed.
Lemma has_app_r k a b : has k b -> has k (a ++ b).
Proof.
  destruct k as [|[|k]]; cbn; auto.
  - intros H E. apply app_eq_nil in E. tauto.
  - intros H. apply in_or_app. auto.
Qed.

Section Prefix.
  Variable u : str.
  (** The same state with [u] after the text. *)
  Definition ap (s : st) : st := set_ms (mkMS (tx s ++ u) (ms_chars (s_ms s) + length u)) s.
  Definition at_ {A} (k c : nat) (s : st) (m m' : M A) : Prop := forall a s', m s = Ok (a, s') ->
    exists p, tx s = p ++ tx s' /\ has c p /\ (has k (tx s') -> m' (ap s) = Ok (a, ap s')).
  Definition pst {A} (k c : nat) (m m' : M A) : Prop := forall s, at_ k c s m m'.

  Lemma tx_ap s : tx (ap s) = tx s ++ u. Proof. reflexivity. Qed.

  Lemma pst_weaken {A} k0 c0 k c (m m' : M A) : pst k0 c0 m m' -> k0 <= k -> c <= c0 -> pst k c m m'.
  Proof.
    intros H Hk Hc s a s' E. destruct (H s a s' E) as (p & H1 & H2 & H3). exists p.
    repeat split; [assumption|eapply has_le; eassumption|]. intros Hh. apply H3. eapply has_le; eassumption.
  Qed.
  Definition need (km k cm c : nat) : nat := Nat.max (if km <=? k then 0 else km) (if c <=? cm then 0 else c).
  Lemma at_bind {A B} km cm k c s (m m' : M A) (f f' : A -> M B) :
    at_ km cm s m m' -> (forall a s1, m s = Ok (a, s1) -> at_ k (need km k cm c) s1 (f a) (f' a)) -> at_ k c s (bind m f) (bind m' f').
  Proof.
    intros Hm Hf b s' E. unfold bind in E. destruct (m s) as [[a s1]| | |] eqn:Em; try discriminate.
    destruct (Hm a s1 Em) as (p & H1 & H2 & H3). destruct (Hf a s1 eq_refl b s' E) as (q & G1 & G2 & G3).
    exists (p ++ q). rewrite H1, G1, app_assoc. split; [reflexivity|]. unfold need in G2. split.
    - destruct (c <=? cm) eqn:Hc.
      + apply has_app_l. apply Nat.leb_le in Hc. eapply has_le; eassumption.
      + apply has_app_r. eapply has_le; [|exact G2]. lia.
    - intros Hh. unfold bind. rewrite H3; [apply G3; assumption|]. rewrite G1.
      destruct (km <=? k) eqn:Hk.
      + apply has_app_r. apply Nat.leb_le in Hk. eapply has_le; eassumption.
      + apply has_app_l. eapply has_le; [|exact G2]. lia.
  Qed.
  Lemma pst_bind {A B} km cm k c (m m' : M A) (f f' : A -> M B) :
    pst km cm m m' -> (forall a, pst k (need km k cm c) (f a) (f' a)) -> pst k c (bind m f) (bind m' f').
  Proof. intros Hm Hf s. eapply at_bind; [apply Hm|]. intros. apply Hf. Qed.
  Lemma pst_if {A} (b : bool) k c (m m' n n' : M A) :
    (b = true -> pst k c m m') -> (b = false -> pst k c n n') -> pst k c (if b then m else n) (if b then m' else n').
  Proof. destruct b; auto. Qed.
  Lemma pst_fail {A} k c e (m' : M A) : pst k c (fail e) m'.
  Proof. intros s a s' E. discriminate. Qed.
  Lemma pst_panic {A} k c (m' : M A) : pst k c panic m'.
  Proof. intros s a s' E. discriminate. Qed.
  Lemma pst_nofuel {A} k c (m' : M A) : pst k c nofuel m'.
  Proof. intros s a s' E. discriminate. Qed.
  (** Steps that leave the text alone. *)
  Definition quiet {A} (m m' : M A) : Prop := forall s a s', m s = Ok (a, s') ->
    tx s' = tx s /\ m' (ap s) = Ok (a, ap s').
  Lemma pst_quiet {A} (m m' : M A) : quiet m m' -> pst 0 0 m m'.
  Proof. intros H s a s' E. destruct (H s a s' E) as [H1 H2]. exists []. rewrite H1. repeat split. auto. Qed.
  Lemma pst_ret {A} (a : A) : pst 0 0 (ret a) (ret a).
  Proof. apply pst_quiet. intros s b s' E. injection E as <- <-. split; reflexivity. Qed.
  Lemma pst_ok_or {A} (o : option A) e : pst 0 0 (ok_or o e) (ok_or o e).
  Proof. destruct o; [apply pst_ret|apply pst_fail]. Qed.
  Lemma pst_intern E n : pst 0 0 (intern E n) (intern E n).
  Proof.
    apply pst_quiet. intros s b s' E1. unfold intern in *. cbn [ap set_ms s_store] in *.
    destruct (_ <? _)%N; [discriminate|]. injection E1 as <- <-. split; reflexivity.
  Qed.
  Lemma pst_res k h : pst 0 0 (res_ k h) (res_ k h).
  Proof.
    apply pst_quiet. intros s b s' E1. unfold res_ in *. cbn [ap set_ms s_store] in *.
    destruct (resolve _ _ _); [|discriminate]. injection E1 as <- <-. split; reflexivity.
  Qed.
  Lemma pst_modify k h f : pst 0 0 (modify k h f) (modify k h f).
  Proof.
    apply pst_quiet. intros s b s' E1. unfold modify in *. cbn [ap set_ms s_store] in *.
    destruct (resolve _ _ _); [|discriminate]. injection E1 as <- <-. split; reflexivity.
  Qed.
  Lemma pst_upd (f : st -> st) : (forall s, tx (f s) = tx s) -> (forall s, f (ap s) = ap (f s)) ->
    pst 0 0 (fun s => Ok (tt, f s)) (fun s => Ok (tt, f s)).
  Proof. intros H1 H2. apply pst_quiet. intros s b s' E. injection E as <- <-. rewrite H2. auto. Qed.
  Lemma pst_run_w w b : pst 0 0 (run_w w b) (run_w w b).
  Proof.
    apply pst_quiet. intros s x s' E. unfold run_w in *. destruct (w b) as [c [[]|e| |]]; try discriminate.
    injection E as <- <-. auto.
  Qed.
  Lemma pst_get {A} k c (f f' : st -> M A) : (forall s, pst k c (f s) (f' (ap s))) -> pst k c (bind get f) (bind get f').
  Proof. intros H s. unfold bind, get. apply H. Qed.
  Lemma pst_text {A} k c (f f' : str -> M A) :
    (forall s, at_ k c s (f (tx s)) (f' (tx s ++ u))) -> pst k c (bind text f) (bind text f').
  Proof. intros H s. unfold bind, text. apply H. Qed.
  Lemma pst_render w : pst 0 0 (render w) (render w).
  Proof.
    unfold render. apply pst_get. intros s. apply (pst_bind 0 0); [apply pst_run_w|]. intros b. apply pst_ok_or.
  Qed.

  (** Lexical primitives. *)
  Lemma drop_ap m r n : 
    ms_drop (mkMS (ms_str m ++ u) (ms_chars m + length u)) (r ++ u) n =
    match ms_drop m r n with Ok m' => Ok (mkMS (ms_str m' ++ u) (ms_chars m' + length u)) | _ => ms_drop (mkMS (ms_str m ++ u) (ms_chars m + length u)) (r ++ u) n end.
  Proof.
    unfold ms_drop. cbn [ms_chars ms_str]. destruct (n <=? ms_chars m) eqn:H; [|reflexivity].
    apply Nat.leb_le in H. replace (n <=? ms_chars m + length u) with true by (symmetry; apply Nat.leb_le; lia).
    cbn [ms_str ms_chars]. replace (ms_chars m + length u - n) with (ms_chars m - n + length u) by lia. reflexivity.
  Qed.
  Lemma drop_ap_ok m r n m' : ms_drop m r n = Ok m' ->
    ms_str m' = r /\ ms_drop (mkMS (ms_str m ++ u) (ms_chars m + length u)) (r ++ u) n = Ok (mkMS (ms_str m' ++ u) (ms_chars m' + length u)).
  Proof.
    intros H. rewrite drop_ap, H. split; [|reflexivity]. unfold ms_drop in H. destruct (_ <=? _); [|discriminate].
    injection H as <-. reflexivity.
  Qed.
  Lemma pst_next e : pst 0 1 (next_char e) (next_char e).
  Proof.
    intros s a s' E. unfold next_char, bind, lift, try_consume in *. cbn [ap set_ms s_ms ms_str].
    destruct (ms_str (s_ms s)) as [|x r] eqn:Et; [discriminate|]. unfold tx. rewrite Et.
    destruct (ms_drop (s_ms s) r 1) as [m'| | |] eqn:Ed; try discriminate. cbn in E. injection E as <- <-.
    apply drop_ap_ok in Ed. destruct Ed as [Hr Ed]. rewrite Et in Ed.
    exists [x]. cbn [set_ms s_ms]. rewrite Hr. split; [reflexivity|]. split; [discriminate|]. intros _.
    cbn [app]. cbn [app] in Ed. rewrite Ed. unfold ap, set_ms, tx. cbn. rewrite Hr. reflexivity.
  Qed.
  Lemma eat_if_cases f s a s' : eat_if f s = Ok (a, s') ->
    (exists x, a = Some x /\ f x = true /\ tx s = x :: tx s' /\ eat_if f (ap s) = Ok (Some x, ap s')) \/
    (a = None /\ s' = s /\ (forall x r, tx s = x :: r -> f x = false) /\ (tx s <> [] -> eat_if f (ap s) = Ok (None, ap s))).
  Proof.
    unfold eat_if, lift, try_consume_char_if, tx. cbn [ap set_ms s_ms ms_str].
    destruct (ms_str (s_ms s)) as [|x r] eqn:Et; intros E.
    - injection E as <- <-. right. repeat split; [destruct s; reflexivity|discriminate|congruence].
    - destruct (f x) eqn:Ef.
      + destruct (ms_drop (s_ms s) r 1) as [m'| | |] eqn:Ed; try discriminate. injection E as <- <-.
        left. exists x. apply drop_ap_ok in Ed. destruct Ed as [Hr Ed]. rewrite Et in Ed. cbn [set_ms s_ms].
        rewrite Hr. repeat split; [assumption|]. unfold tx. rewrite Et. cbn [app]. rewrite Ef. cbn [app] in Ed. rewrite Ed.
        unfold ap, set_ms, tx. cbn. rewrite Hr. reflexivity.
      + injection E as <- <-. right. repeat split; [destruct s; reflexivity|congruence|]. intros _.
        unfold tx. rewrite Et. cbn [app]. rewrite Ef. unfold ap, set_ms, tx. cbn. rewrite Et. reflexivity.
  Qed.
  Lemma pst_eat_if f : pst 1 0 (eat_if f) (eat_if f).
  Proof.
    intros s a s' E. destruct (eat_if_cases f s a s' E) as [(x & -> & Hf & Ht & Ha)|(-> & -> & Hf & Ha)].
    - exists [x]. split; [assumption|]. split; [exact I|]. auto.
    - exists []. repeat split. cbn. auto.
  Qed.
  (** A required character of a class. *)
  Lemma pst_need_if {A} f e k c (g g' : N -> M A) : (forall x, f x = true -> pst k (if c <=? 1 then 0 else c) (g x) (g' x)) ->
    pst k c (o <- eat_if f ;; x <- ok_or o e ;; g x) (o <- eat_if f ;; x <- ok_or o e ;; g' x).
  Proof.
    intros Hg s a s' E. unfold bind in *. destruct (eat_if f s) as [[o s1]| | |] eqn:Ee; try discriminate.
    destruct (eat_if_cases f s o s1 Ee) as [(x & -> & Hf & Ht & Ha)|(-> & -> & Hf & Ha)]; [|discriminate].
    cbn in E. destruct (Hg x Hf s1 a s' E) as (p & H1 & H2 & H3). exists (x :: p). rewrite Ht, H1.
    split; [reflexivity|]. split.
    - destruct (c <=? 1) eqn:Hc; [|apply (has_app_r c [x]); exact H2]. apply Nat.leb_le in Hc. apply (has_le 1); [assumption|]. discriminate.
    - intros Hh. rewrite Ha. cbn. apply H3. assumption.
  Qed.
  Lemma eat_char_cases x s a s' : eat_char x s = Ok (a, s') ->
    (a = true /\ tx s = x :: tx s' /\ eat_char x (ap s) = Ok (true, ap s')) \/
    (a = false /\ s' = s /\ (tx s <> [] -> eat_char x (ap s) = Ok (false, ap s))).
  Proof.
    unfold eat_char, bind. change (lift (try_consume_char x)) with (eat_if (fun c => (c =? x)%N)).
    destruct (eat_if _ s) as [[o s1]| | |] eqn:Ee; try discriminate. intros E. injection E as <- <-.
    destruct (eat_if_cases _ s o s1 Ee) as [(y & -> & Hf & Ht & Ha)|(-> & -> & Hf & Ha)].
    - left. apply N.eqb_eq in Hf. subst y. rewrite Ha. auto.
    - right. repeat split. intros H. rewrite (Ha H). reflexivity.
  Qed.
  Lemma pst_eat_char x : pst 1 0 (eat_char x) (eat_char x).
  Proof.
    intros s a s' E. destruct (eat_char_cases x s a s' E) as [(-> & Ht & Ha)|(-> & -> & Ha)].
    - exists [x]. rewrite Ht. repeat split. auto.
    - exists []. repeat split. cbn. auto.
  Qed.
  Lemma pst_char {A} cx x k c (f f' : bool -> M A) : has cx [x] ->
    pst k (if c <=? cx then 0 else c) (f true) (f' true) ->
    pst k (if 1 <=? k then c else Nat.max 1 c) (f false) (f' false) ->
    pst k c (bind (eat_char x) f) (bind (eat_char x) f').
  Proof.
    intros Hx H1 H2 s a s' E. unfold bind in *. destruct (eat_char x s) as [[b s1]| | |] eqn:Ee; try discriminate.
    destruct (eat_char_cases x s b s1 Ee) as [(-> & Ht & Ha)|(-> & -> & Ha)].
    - destruct (H1 s1 a s' E) as (p & G1 & G2 & G3). exists (x :: p). rewrite Ht, G1. split; [reflexivity|]. split.
      + destruct (c <=? cx) eqn:Hc; [|apply (has_app_r c [x]); exact G2]. apply Nat.leb_le in Hc.
        apply (has_app_l c [x]). eapply has_le; eassumption.
      + intros Hh. rewrite Ha. auto.
    - destruct (H2 s a s' E) as (p & G1 & G2 & G3). exists p. split; [assumption|].
      destruct (1 <=? k) eqn:Hk.
      + split; [assumption|]. intros Hh. rewrite Ha; [auto|]. rewrite G1. apply Nat.leb_le in Hk.
        apply (has_app_r 1). eapply has_le; eassumption.
      + split; [eapply has_le; [|exact G2]; lia|]. intros Hh. rewrite Ha; [auto|]. rewrite G1.
        apply (has_app_l 1). eapply has_le; [|exact G2]. lia.
  Qed.
  Lemma pst_expect_char cx x e : has cx [x] -> pst 0 cx (expect_char x e) (expect_char x e).
  Proof.
    intros Hx. unfold expect_char. apply (pst_char cx); [assumption| |apply pst_fail].
    rewrite Nat.leb_refl. apply pst_ret.
  Qed.

  (** Proper prefixes. *)
  Definition short (p t : str) : Prop := exists x r, p = t ++ x :: r.
  Lemma strip_short p t : strip_prefix p t = None -> ~ short p t -> strip_prefix p (t ++ u) = None.
  Proof.
    revert t. induction p as [|x p IH]; intros t H Hs; [discriminate|].
    destruct t as [|y t]; [exfalso; apply Hs; exists x, p; reflexivity|]. cbn in *.
    destruct (x =? y)%N eqn:Hxy; [|reflexivity]. apply IH; [assumption|]. intros (z & r & ->). apply Hs.
    apply N.eqb_eq in Hxy. subst y. exists z, r. reflexivity.
  Qed.
  Lemma strip_more p t r : strip_prefix p t = Some r -> strip_prefix p (t ++ u) = Some (r ++ u).
  Proof. rewrite !strip_prefix_spec. intros ->. symmetry. apply app_assoc. Qed.
  Lemma starts_more p t : starts_with p t = true -> starts_with p (t ++ u) = true.
  Proof.
    unfold starts_with. destruct (strip_prefix p t) as [r|] eqn:H; [|discriminate]. rewrite (strip_more _ _ _ H). reflexivity.
  Qed.
  Lemma starts_short p t : starts_with p t = false -> ~ short p t -> starts_with p (t ++ u) = false.
  Proof.
    unfold starts_with. destruct (strip_prefix p t) as [r|] eqn:H; [discriminate|]. intros _ Hs. rewrite strip_short; auto.
  Qed.
  Lemma eat_str_cases p s a s' : eat_str p s = Ok (a, s') ->
    (a = true /\ tx s = p ++ tx s' /\ eat_str p (ap s) = Ok (true, ap s')) \/
    (a = false /\ s' = s /\ (~ short p (tx s) -> eat_str p (ap s) = Ok (false, ap s))).
  Proof.
    unfold eat_str, bind, lift, try_consume_str, tx. cbn [ap set_ms s_ms ms_str].
    destruct (strip_prefix p (ms_str (s_ms s))) as [r|] eqn:Es.
    - destruct (ms_drop (s_ms s) r (length p)) as [m'| | |] eqn:Ed; try discriminate. cbn. intros E. injection E as <- <-.
      left. split; [reflexivity|]. apply drop_ap_ok in Ed. destruct Ed as [Hr Ed]. cbn [set_ms s_ms]. rewrite Hr.
      unfold tx. rewrite (strip_more _ _ _ Es), Ed. split; [apply strip_prefix_spec; assumption|].
      unfold ap, set_ms, tx. cbn. reflexivity.
    - intros E. cbn in E. injection E as <- <-. right. split; [reflexivity|]. split; [destruct s; reflexivity|].
      intros Hs. unfold tx. rewrite strip_short by assumption. reflexivity.
  Qed.
  Lemma pst_expect_str c p e : has c p -> pst 0 c (expect_str p e) (expect_str p e).
  Proof.
    intros Hp s a s' E. unfold expect_str, bind in *. destruct (eat_str p s) as [[b s1]| | |] eqn:Ee; try discriminate.
    destruct (eat_str_cases p s b s1 Ee) as [(-> & Ht & Ha)|(-> & -> & _)]; [|discriminate].
    injection E as <- <-. exists p. rewrite Ha. auto.
  Qed.
  (** A test for a literal: the continuation after failure must not succeed on a proper prefix
      of the literal. *)
  Lemma pst_str {A} cx p k c (f f' : bool -> M A) : has cx p ->
    (forall s a s', short p (tx s) -> f false s = Ok (a, s') -> has k (tx s') -> False) ->
    pst k (if c <=? cx then 0 else c) (f true) (f' true) ->
    pst k c (f false) (f' false) ->
    pst k c (bind (eat_str p) f) (bind (eat_str p) f').
  Proof.
    intros Hx Hs H1 H2 s a s' E. unfold bind in *. destruct (eat_str p s) as [[b s1]| | |] eqn:Ee; try discriminate.
    destruct (eat_str_cases p s b s1 Ee) as [(-> & Ht & Ha)|(-> & -> & Ha)].
    - destruct (H1 s1 a s' E) as (q & G1 & G2 & G3). exists (p ++ q). rewrite Ht, G1, app_assoc. split; [reflexivity|]. split.
      + destruct (c <=? cx) eqn:Hc; [|apply has_app_r; exact G2]. apply Nat.leb_le in Hc.
        apply has_app_l. eapply has_le; eassumption.
      + intros Hh. rewrite Ha. auto.
    - destruct (H2 s a s' E) as (q & G1 & G2 & G3). exists q. split; [assumption|]. split; [assumption|].
      intros Hh. rewrite Ha; [auto|]. intros Hsh. eapply Hs; eassumption.
  Qed.
  Lemma short_no_at p t : ~ In (ch "@") p -> short p t -> ~ In (ch "@") t.
  Proof. intros Hp (x & r & ->) H. apply Hp, in_or_app. auto. Qed.
  Lemma pst_eat_str2 p : ~ In (ch "@") p -> pst 2 0 (eat_str p) (eat_str p).
  Proof.
    intros Hp s b s1 Ee. destruct (eat_str_cases p s b s1 Ee) as [(-> & Ht & Ha)|(-> & -> & Ha)].
    - exists p. rewrite Ha. repeat split. assumption.
    - exists []. repeat split. cbn. intros Hin. apply Ha. intros Hs. apply (short_no_at _ _ Hp Hs). assumption.
  Qed.
  Lemma pst_eat_first l : Forall (fun p => ~ In (ch "@") p) l -> pst 2 0 (eat_first l) (eat_first l).
  Proof.
    induction 1 as [|p l Hp Hl IH]; [eapply pst_weaken; [apply pst_ret|lia|lia]|]. cbn [eat_first].
    apply (pst_bind 2 0); [apply pst_eat_str2; assumption|]. intros b. cbn. destruct b; [|exact IH].
    eapply pst_weaken; [apply pst_ret|lia|lia].
  Qed.
  Lemma pst_consume_special t : Forall (fun x => ~ In (ch "@") (fst x)) t -> pst 2 0 (consume_special t) (consume_special t).
  Proof.
    induction 1 as [|[p k] l Hp Hl IH]; [eapply pst_weaken; [apply pst_ret|lia|lia]|]. cbn [consume_special].
    apply (pst_bind 2 0); [apply pst_eat_str2; assumption|]. intros b. cbn. destruct b; [|exact IH].
    eapply pst_weaken; [apply pst_ret|lia|lia].
  Qed.

  (** Counted text. *)
  Lemma find_more x t i : find_char x t = Some i -> find_char x (t ++ u) = Some i.
  Proof.
    revert i. induction t as [|c t IH]; intros i H; [discriminate|]. cbn in *. destruct (c =? x)%N; [assumption|].
    destruct (find_char x t) as [j|]; [|discriminate]. rewrite (IH j eq_refl). assumption.
  Qed.
  Lemma split_more n t a b : split_bytes n t = Some (a, b) -> split_bytes n (t ++ u) = Some (a, b ++ u).
  Proof. rewrite !split_bytes_spec. intros [-> H]. split; [symmetry; apply app_assoc|assumption]. Qed.
  Lemma n_bytes_cases n s a s' : lift (try_consume_n_bytes n) s = Ok (Some a, s') ->
    tx s = a ++ tx s' /\ str_bytes a = n /\ lift (try_consume_n_bytes n) (ap s) = Ok (Some a, ap s').
  Proof.
    unfold lift, try_consume_n_bytes, tx. cbn [ap set_ms s_ms ms_str].
    destruct (split_bytes n (ms_str (s_ms s))) as [[x r]|] eqn:Es; [|discriminate].
    destruct (ms_drop (s_ms s) r (length x)) as [m'| | |] eqn:Ed; try discriminate. intros E. injection E as <- <-.
    apply drop_ap_ok in Ed. destruct Ed as [Hr Ed]. cbn [set_ms s_ms]. rewrite Hr.
    unfold tx. rewrite (split_more _ _ _ _ Es), Ed. apply split_bytes_spec in Es. destruct Es as [E1 E2].
    repeat split; try assumption.
  Qed.
  Lemma pst_n_bytes {A} n e k c (g g' : str -> M A) : (forall x, pst k c (g x) (g' x)) ->
    pst k c (o <- lift (try_consume_n_bytes n) ;; x <- ok_or o e ;; g x) (o <- lift (try_consume_n_bytes n) ;; x <- ok_or o e ;; g' x).
  Proof.
    intros Hg s a s' E. unfold bind in *. destruct (lift (try_consume_n_bytes n) s) as [[o s1]| | |] eqn:Ee; try discriminate.
    destruct o as [x|]; [|discriminate]. cbn in E. destruct (n_bytes_cases _ _ _ _ Ee) as (Ht & _ & Ha).
    destruct (Hg x s1 a s' E) as (p & H1 & H2 & H3). exists (x ++ p). rewrite Ht, H1, app_assoc. split; [reflexivity|].
    split; [apply has_app_r; assumption|]. intros Hh. rewrite Ha. cbn. auto.
  Qed.
  Lemma pst_two {A} e k c (g g' : N * N -> M A) : (forall x, pst k c (g x) (g' x)) ->
    pst k c (o <- lift try_consume_2_chars ;; x <- ok_or o e ;; g x) (o <- lift try_consume_2_chars ;; x <- ok_or o e ;; g' x).
  Proof.
    intros Hg s a s' E. unfold bind in *. destruct (lift try_consume_2_chars s) as [[o s1]| | |] eqn:Ee; try discriminate.
    destruct o as [x|]; [|discriminate]. cbn in E. unfold lift, try_consume_2_chars in *. cbn [ap set_ms s_ms ms_str].
    unfold tx. destruct (ms_str (s_ms s)) as [|y [|z r]] eqn:Et; try discriminate.
    destruct (ms_drop (s_ms s) r 2) as [m'| | |] eqn:Ed; try discriminate. injection Ee as <- <-.
    apply drop_ap_ok in Ed. destruct Ed as [Hr Ed]. rewrite Et in Ed.
    destruct (Hg (y, z) _ a s' E) as (p & H1 & H2 & H3). cbn [set_ms s_ms] in *.
    exists (y :: z :: p). unfold tx in H1. cbn [set_ms s_ms] in H1. rewrite Hr in H1. split; [cbn; rewrite H1; reflexivity|].
    split; [apply (has_app_r c [y; z]); assumption|]. intros Hh. cbn [app]. cbn [app] in Ed. rewrite Ed.
    cbn. rewrite <- (H3 Hh). unfold ap, set_ms, tx. cbn. rewrite Hr. reflexivity.
  Qed.

  (** ** Automation *)
  Lemma has_at : has 2 [ch "@"]. Proof. left; reflexivity. Qed.
  Lemma has_one x : has 1 [x]. Proof. discriminate. Qed.

  Lemma pst_assoc {A B C} k c (m m' : M A) (f f' : A -> M B) (g g' : B -> M C) :
    pst k c (bind m (fun a => bind (f a) g)) (bind m' (fun a => bind (f' a) g')) -> pst k c (bind (bind m f) g) (bind (bind m' f') g').
  Proof.
    intros H s a s' E. specialize (H s a s'). unfold bind in *. destruct (m s) as [[x s1]| | |]; try discriminate.
    destruct (H E) as (p & H1 & H2 & H3). exists p. repeat split; [assumption|assumption|]. intros Hh. rewrite <- (H3 Hh).
    destruct (m' (ap s)) as [[y s2]| | |]; reflexivity.
  Qed.
  Lemma pst_bind_fail {A B} k c e (f : A -> M B) m' : pst k c (bind (fail e) f) m'.
  Proof. intros s a s' E. discriminate. Qed.
  Lemma pst_bind_panic {A B} k c (f : A -> M B) m' : pst k c (bind panic f) m'.
  Proof. intros s a s' E. discriminate. Qed.
  Ltac norm := match goal with |- pst ?k ?c ?m ?m' => let c' := eval cbv in c in change (pst k c' m m') end.
  Ltac leaf := norm; eapply pst_weaken; [solve [eauto with pst]|lia|lia].
  Ltac pl1 :=
    match goal with
    | |- pst _ _ (fail _) _ => apply pst_fail
    | |- pst _ _ panic _ => apply pst_panic
    | |- pst _ _ nofuel _ => apply pst_nofuel
    | |- pst _ _ (bind get _) _ => apply pst_get; intros ?
    | |- pst _ _ (bind (eat_char (ch "@")) _) _ => apply (pst_char 2); [exact has_at|cbv match; norm|cbv match; norm]
    | |- pst _ _ (bind (eat_char _) _) _ => apply (pst_char 1); [apply has_one|cbv match; norm|cbv match; norm]
    | |- pst _ _ (bind (eat_if _) (fun o => bind (ok_or o _) _)) _ => apply pst_need_if; intros ? ?; norm
    | |- pst _ _ (bind (lift (try_consume_n_bytes _)) (fun o => bind (ok_or o _) _)) _ => apply pst_n_bytes; intros ?
    | |- pst _ _ (bind _ _) (bind _ _) => eapply pst_bind; [solve [eauto with pst]|intros ?; norm]
    | |- pst _ _ (bind (bind _ _) _) (bind (bind _ _) _) => apply pst_assoc
    | |- pst _ _ (bind (match ?x with _ => _ end) _) (bind _ _) => destruct x; cbv match
    | |- pst _ _ (bind (fail _) _) _ => apply pst_bind_fail
    | |- pst _ _ (bind panic _) _ => apply pst_bind_panic
    | |- pst _ _ (if ?b then _ else _) (if ?b then _ else _) => apply pst_if; intros ?
    | |- pst _ _ (match ?x with _ => _ end) (match ?x with _ => _ end) => destruct x
    | |- pst _ _ _ _ => leaf
    end.
  Ltac pl := repeat pl1.
  Hint Resolve pst_ret pst_ok_or pst_intern pst_res pst_modify pst_run_w pst_render pst_next pst_eat_if pst_eat_char : pst.
  Lemma pst_expect_at e : pst 0 2 (expect_char (ch "@") e) (expect_char (ch "@") e).
  Proof. apply pst_expect_char, has_at. Qed.
  Lemma pst_expect_one x e : pst 0 1 (expect_char x e) (expect_char x e).
  Proof. apply pst_expect_char, has_one. Qed.
  Hint Resolve pst_expect_at | 0 : pst.
  Hint Resolve pst_expect_one | 5 : pst.

  Lemma pst_ext_quals : pst 1 0 pointer_ext_qualifiers pointer_ext_qualifiers.
  Proof. unfold pointer_ext_qualifiers. pl. Qed.
  Lemma pst_number_loop n : forall n' c v, n <= n' -> pst 0 0 (number_loop n c v) (number_loop n' c v).
  Proof.
    induction n as [|n IH]; intros n' c v Hn; [apply pst_nofuel|]. destruct n' as [|n']; [lia|]. cbn [number_loop].
    assert (H : forall c v, pst 0 0 (number_loop n c v) (number_loop n' c v)) by (intros; apply IH; lia).
    cbv zeta. pl.
  Qed.
  Lemma pst_number : pst 0 1 demangle_number demangle_number.
  Proof.
    unfold demangle_number. apply (pst_bind 1 0); [apply pst_eat_char|intros neg; norm].
    apply (pst_bind 0 1); [apply pst_next|intros c; norm]. apply pst_if; intros _; [pl|].
    apply pst_text. intros s. apply (pst_bind 0 0).
    - apply pst_number_loop. rewrite app_length. lia.
    - intros v. pl.

  Qed.
  Hint Resolve pst_ext_quals pst_number : pst.
  Lemma pst_unsigned : pst 0 1 demangle_unsigned demangle_unsigned.
  Proof. unfold demangle_unsigned. pl. Qed.
  Lemma pst_signed : pst 0 1 demangle_signed demangle_signed.
  Proof. unfold demangle_signed. pl. Qed.
  Lemma pst_to_u32 n e : pst 0 0 (to_u32 n e) (to_u32 n e).
  Proof. unfold to_u32. pl. Qed.
  Lemma pst_to_i32 n e : pst 0 0 (to_i32 n e) (to_i32 n e).
  Proof. unfold to_i32. pl. Qed.
  Lemma pst_quals : pst 0 1 demangle_qualifiers demangle_qualifiers.
  Proof. unfold demangle_qualifiers. pl. Qed.
  Lemma pst_ref_qual : pst 1 0 demangle_function_ref_qualifier demangle_function_ref_qualifier.
  Proof. unfold demangle_function_ref_qualifier. pl. Qed.
  Lemma pst_cc : pst 0 1 demangle_calling_convention demangle_calling_convention.
  Proof. unfold demangle_calling_convention. pl. Qed.
  Lemma pst_storage : pst 0 1 demangle_variable_storage_class demangle_variable_storage_class.
  Proof. unfold demangle_variable_storage_class. pl. Qed.
  Hint Resolve pst_unsigned pst_signed pst_to_u32 pst_to_i32 pst_quals pst_ref_qual pst_cc pst_storage : pst.

  (** All proper prefixes of a literal. *)
  Lemma short_cons x p t : short (x :: p) t -> t = [] \/ exists t', t = x :: t' /\ short p t'.
  Proof.
    intros (y & r & H). destruct t as [|z t]; [auto|]. right. cbn in H. injection H as <- H. exists t. split; [reflexivity|].
    exists y, r. assumption.
  Qed.
  Lemma short_nil t : short [] t -> False.
  Proof. intros (y & r & H). destruct t; discriminate. Qed.
  Ltac shorts H :=
    let t := fresh "t" in let H' := fresh "H" in
    first [apply short_nil in H; destruct H |
           apply short_cons in H; destruct H as [H|(t & H & H')]; [|shorts H'; subst t]].

  Lemma pst_throw : pst 0 1 demangle_throw_specification demangle_throw_specification.
  Proof.
    unfold demangle_throw_specification. apply (pst_str 1); [discriminate| |pl|pl].
    intros s a s' Hs E _. destruct s as [[t n] x y z]. unfold tx in Hs. cbn [s_ms ms_str] in Hs.
    shorts Hs; subst t; cbn in E; discriminate.
  Qed.
  Lemma pst_function_class : pst 0 1 demangle_function_class demangle_function_class.
  Proof. unfold demangle_function_class. cbv zeta. pl. Qed.
  Lemma pst_char_literal : pst 0 1 demangle_char_literal demangle_char_literal.
  Proof.
    unfold demangle_char_literal. apply (pst_bind 0 1); [apply pst_next|intros c; norm]. apply pst_if; intros _; [|pl].
    apply (pst_bind 0 1); [apply pst_next|intros d; norm]. apply pst_if; intros _; [|pl].
    apply pst_two. intros [x y]. pl.
  Qed.
  Hint Resolve pst_throw pst_function_class pst_char_literal : pst.
  Lemma pst_wchar_literal : pst 0 1 demangle_wchar_literal demangle_wchar_literal.
  Proof. unfold demangle_wchar_literal. pl. Qed.
  Lemma pst_translate c g : pst 0 0 (translate_intrinsic c g) (translate_intrinsic c g).
  Proof. unfold translate_intrinsic. cbv zeta. pl. Qed.
  Lemma pst_resolve_names l : pst 0 0 (resolve_names l) (resolve_names l).
  Proof. induction l; cbn [resolve_names]; pl. Qed.
  Lemma pst_unqualified h : pst 0 0 (unqualified_identifier h) (unqualified_identifier h).
  Proof. unfold unqualified_identifier. pl. Qed.
  Hint Resolve pst_wchar_literal pst_translate pst_resolve_names pst_unqualified : pst.

  Section Parser.
    Variable E : env.
    Variables K K' : knot.
    Hypothesis HKp : pst 2 1 (k_parse K) (k_parse K').
    Hypothesis HKt : forall m, pst 0 1 (k_type K m) (k_type K' m).
    Hypothesis HKi : forall b, pst 0 2 (k_tinst K b) (k_tinst K' b).
    (** A type does not start with one or two dollars and nothing else. *)
    Hypothesis HKd : forall s a s', tx s = L "$" \/ tx s = L "$$" -> k_type K QDrop s = Ok (a, s') -> False.
    Hint Resolve HKp HKt HKi : pst.

    Lemma pst_synth_id id : pst 0 0 (synthesize_from_id E id) (synthesize_from_id E id).
    Proof. unfold synthesize_from_id. pl. Qed.
    Hint Resolve pst_synth_id : pst.
    Lemma pst_synth_name id : pst 0 0 (synthesize_from_name E id) (synthesize_from_name E id).
    Proof. unfold synthesize_from_name. pl. Qed.
    Hint Resolve pst_synth_name : pst.
    Lemma pst_memorize nm : pst 0 0 (memorize_string E nm) (memorize_string E nm).
    Proof.
      unfold memorize_string. apply pst_get. intros s. cbn [ap set_ms s_names]. pl.
      apply (pst_upd (fun s0 => set_names (s_names s0 ++ [a0]) s0)); reflexivity.
    Qed.
    Hint Resolve pst_memorize : pst.
    Lemma pst_memorize_id h : pst 0 0 (memorize_identifier E h) (memorize_identifier E h).
    Proof. unfold memorize_identifier. pl. Qed.
    Hint Resolve pst_memorize_id : pst.
    Lemma pst_simple_string b : pst 0 2 (demangle_simple_string E b) (demangle_simple_string E b).
    Proof.
      unfold demangle_simple_string. apply pst_text. intros s.
      destruct (find_char (ch "@") (tx s)) as [i|] eqn:Hf; [|apply pst_fail]. rewrite (find_more _ _ _ Hf).
      revert s Hf. intros s _. revert s. change (pst 0 2 (pos <- ok_or (Some i) InvalidSimpleString ;;
    if pos =? 0 then fail InvalidSimpleString
    else
      o <- lift (try_consume_n_bytes pos) ;;
      name <- ok_or o InvalidSimpleString ;;
      expect_char (ch "@") InvalidSimpleString ;;;
      (if b then memorize_string E name else ret tt) ;;;
      ret name) (pos <- ok_or (Some i) InvalidSimpleString ;;
    if pos =? 0 then fail InvalidSimpleString
    else
      o <- lift (try_consume_n_bytes pos) ;;
      name <- ok_or o InvalidSimpleString ;;
      expect_char (ch "@") InvalidSimpleString ;;;
      (if b then memorize_string E name else ret tt) ;;;
      ret name)). pl.
    Qed.
    Hint Resolve pst_simple_string : pst.
    Lemma pst_simple_name b : pst 0 2 (demangle_simple_name E b) (demangle_simple_name E b).
    Proof. unfold demangle_simple_name. pl. Qed.
    Hint Resolve pst_simple_name : pst.
    Lemma pst_back_ref : pst 0 1 demangle_back_ref_name demangle_back_ref_name.
    Proof. unfold demangle_back_ref_name. pl. Qed.
    Hint Resolve pst_back_ref : pst.
    (** Forget the state of a pointwise goal. *)
    Ltac anywhere := match goal with |- at_ ?k ?c ?s ?m ?m' => refine ((_ : pst k c m m') s) end.

    Lemma pst_anonymous : pst 0 2 (demangle_anonymous_namespace_name E) (demangle_anonymous_namespace_name E).
    Proof.
      unfold demangle_anonymous_namespace_name. apply (pst_bind 0 1); [apply pst_expect_str; discriminate|intros _; norm].
      apply pst_text. intros s.
      destruct (find_char (ch "@") (tx s)) as [i|] eqn:Hf; [|apply pst_fail]. rewrite (find_more _ _ _ Hf).
      anywhere. pl.
    Qed.
    Lemma pst_locally : pst 0 1 (demangle_locally_scoped_name_piece E K) (demangle_locally_scoped_name_piece E K').
    Proof. unfold demangle_locally_scoped_name_piece. pl. Abort.
    (** The scope piece of a local scope needs an at-sign after it: the nested symbol may look
        ahead. *)
    Lemma pst_locally : pst 2 1 (demangle_locally_scoped_name_piece E K) (demangle_locally_scoped_name_piece E K').
    Proof. unfold demangle_locally_scoped_name_piece. pl. Qed.
    Hint Resolve pst_anonymous pst_locally : pst.

    Lemma first_more f t : t <> [] -> first_is f (t ++ u) = first_is f t.
    Proof. destruct t; [congruence|reflexivity]. Qed.
    Lemma at_no_at {A} c s (m m' : M A) : pst 2 c m m -> ~ In (ch "@") (tx s) -> at_ 2 c s m m'.
    Proof.
      intros Hm Hn a s' E1. destruct (Hm s a s' E1) as (p & H1 & H2 & _). exists p. repeat split; try assumption.
      intros Hh. exfalso. apply Hn. rewrite H1. apply in_or_app. right. exact Hh.
    Qed.
    Lemma local_true t : local_scope_pattern t = Ok true ->
      exists body c r, t = ch "?" :: body ++ c :: ch "?" :: r /\ ~ In (ch "?") (body ++ [c]) /\ ~ In (ch "@") body.
    Proof.
      destruct t as [|q t]; [discriminate|]. cbn [local_scope_pattern].
      destruct (N.eqb_spec q (ch "?")) as [->|]; [|discriminate].
      destruct (find_char (ch "?") t) as [e|] eqn:Hf; [|discriminate].
      destruct (find_char_spec _ _ _ Hf) as (a & b & -> & He & Hn).
      destruct (split_bytes e (a ++ ch "?" :: b)) as [[cand rest]|] eqn:Hs; [|discriminate].
      assert (Hs' : split_bytes e (a ++ ch "?" :: b) = Some (a, ch "?" :: b)) by (apply split_bytes_spec; auto).
      rewrite Hs in Hs'. injection Hs' as -> ->.
      destruct a as [|c0 [|c1 a]]; [discriminate| |].
      - intros _. exists [], c0, b. split; [reflexivity|]. split; [assumption|intros []].
      - destruct (last (c0 :: c1 :: a) 0 =? ch "@")%N eqn:Hl; [|discriminate].
        destruct (split_bytes (str_bytes (c0 :: c1 :: a) - 1) (c0 :: c1 :: a)) as [[body x]|] eqn:Hb; [|discriminate].
        apply split_bytes_spec in Hb. destruct Hb as [Hb Hy]. intros Hr.
        assert (Hbx : str_bytes x = 1).
        { assert (H : str_bytes (c0 :: c1 :: a) = str_bytes body + str_bytes x) by (rewrite Hb at 1; apply str_bytes_app).
          rewrite str_bytes_cons in H. pose proof (utf8_len_pos c0). rewrite str_bytes_cons in Hy. lia. }
        assert (Hx : exists c, x = [c]).
        { destruct x as [|y [|z x]]; [discriminate|eauto|]. rewrite !str_bytes_cons in Hbx.
          pose proof (utf8_len_pos y). pose proof (utf8_len_pos z). lia. }
        destruct Hx as [c ->]. exists body, c, b. rewrite Hb. rewrite <- app_assoc. split; [reflexivity|].
        split; [rewrite <- Hb; assumption|]. destruct body as [|b0 bs]; [intros []|]. injection Hr as Hr.
        apply andb_prop in Hr. destruct Hr as [H0 H1]. rewrite forallb_forall in H1. intros [->|Hi].
        + vm_compute in H0. discriminate.
        + specialize (H1 _ Hi). vm_compute in H1. discriminate.
    Qed.
    Lemma local_more_true t : local_scope_pattern t = Ok true -> local_scope_pattern (t ++ u) = Ok true.
    Proof.
      intros H. rewrite <- H. destruct t as [|q t]; [discriminate|]. cbn [local_scope_pattern app] in *.
      destruct (q =? ch "?")%N; [|discriminate]. destruct (find_char (ch "?") t) as [e|] eqn:Hf; [|discriminate].
      rewrite (find_more _ _ _ Hf). destruct (split_bytes e t) as [[cand r]|] eqn:Hs; [|discriminate].
      rewrite (split_more _ _ _ _ Hs). reflexivity.
    Qed.
    Lemma local_more_false t x y : local_scope_pattern t = Ok false -> t = ch "?" :: x ++ ch "@" :: y -> In (ch "@") y ->
      local_scope_pattern (t ++ u) = Ok false.
    Proof.
      intros H Ht Hy. destruct (local_scope_ok (t ++ u)) as [b Hb]. rewrite Hb. destruct b; [|reflexivity].
      destruct (local_true _ Hb) as (body & c & r & Hbu & Hq & Ha). subst t. cbn [app] in Hbu. injection Hbu as Hbu.
      destruct (find_char (ch "?") (x ++ ch "@" :: y)) as [e|] eqn:Hf.
      - cbn [local_scope_pattern app] in Hb. cbn [local_scope_pattern app] in H. rewrite N.eqb_refl in *.
        rewrite (find_more _ _ _ Hf) in Hb. rewrite Hf in H.
        destruct (split_bytes e (x ++ ch "@" :: y)) as [[cand r']|] eqn:Hs.
        + rewrite (split_more _ _ _ _ Hs) in Hb. congruence.
        + discriminate.
      - exfalso. assert (Hn : ~ In (ch "?") (x ++ ch "@" :: y)).
        { clear - Hf. induction (x ++ ch "@" :: y) as [|z l IH]; [intros []|]. cbn [find_char] in Hf.
          destruct (N.eqb_spec z (ch "?")); [discriminate|]. destruct (find_char _ l); [discriminate|].
          intros [->|Hi]; [congruence|apply IH; auto]. }
        assert (Hlen : exists v, body ++ [c] = (x ++ ch "@" :: y) ++ v).
        { assert (Hbu' : (x ++ ch "@" :: y) ++ u = (body ++ [c]) ++ ch "?" :: r) by (rewrite <- (app_assoc body); exact Hbu).
          clear Hbu. rename Hbu' into Hbu.
          revert Hbu Hn. generalize (x ++ ch "@" :: y), (body ++ [c]). clear. induction l as [|z l IH]; intros m Hb Hn.
          - exists m. reflexivity.
          - destruct m as [|w m]; cbn in Hb; injection Hb as Hz Hb.
            + exfalso. apply Hn. left. assumption.
            + subst w. destruct (IH m Hb) as [v ->]; [|exists v; reflexivity]. intros Hi. apply Hn. right. assumption. }
        destruct Hlen as [v Hv]. destruct y as [|y0 y1] eqn:Ey; [contradiction|].
        destruct (@exists_last _ ((y0 :: y1) ++ v)) as (z & w & Hz); [discriminate|].
        replace ((x ++ ch "@" :: y0 :: y1) ++ v) with ((x ++ ch "@" :: z) ++ [w]) in Hv.
        + apply app_inj_tail in Hv. destruct Hv as [-> _]. apply Ha, in_or_app. right. left. reflexivity.
        + rewrite <- !app_assoc. cbn [app]. f_equal. f_equal. symmetry. exact Hz.
    Qed.
    Lemma at_with_at {A} c s (m m0 m' : M A) : pst 2 c m m0 -> (In (ch "@") (tx s) -> at_ 2 c s m m') -> at_ 2 c s m m'.
    Proof.
      intros Hm Hy a s' E1. destruct (Hm s a s' E1) as (p & H1 & H2 & _).
      destruct (in_dec N.eq_dec (ch "@") (tx s)) as [Hi|Hn]; [apply Hy; assumption|].
      exists p. repeat split; try assumption. intros Hh. exfalso. apply Hn. rewrite H1. apply in_or_app. right. exact Hh.
    Qed.
    Lemma starts_at p t : In (ch "@") t -> ~ In (ch "@") p -> starts_with p (t ++ u) = starts_with p t.
    Proof.
      intros Ht Hp. destruct (starts_with p t) eqn:H; [apply starts_more; assumption|].
      apply starts_short; [assumption|]. intros Hs. exact (short_no_at _ _ Hp Hs Ht).
    Qed.
    Ltac noat := let H := fresh in intros H; cbn in H; repeat (destruct H as [H|H]; [vm_compute in H; discriminate|]); destruct H.

    Lemma pst_piece : pst 2 1 (demangle_name_scope_piece E K) (demangle_name_scope_piece E K').
    Proof.
      unfold demangle_name_scope_piece. apply pst_text. intros s.
      eapply (at_with_at _ _ _ (if first_is is_digit (tx s) then demangle_back_ref_name
        else if starts_with (L "?$") (tx s) then k_tinst K' NBB_Template
        else if starts_with (L "?A") (tx s) then demangle_anonymous_namespace_name E
        else match local_scope_pattern (tx s) with
             | Ok true => demangle_locally_scoped_name_piece E K'
             | Ok false => demangle_simple_name E true
             | _ => panic
             end)).
      { pl. }
      intros Hat. rewrite first_more by (intros H; rewrite H in Hat; destruct Hat).
      rewrite !starts_at by (assumption || noat).
      destruct (first_is _ _); [anywhere; pl|]. destruct (starts_with (L "?$") (tx s)); [anywhere; pl|].
      destruct (starts_with (L "?A") (tx s)); [anywhere; pl|].
      destruct (local_scope_ok (tx s)) as [b Hb]. rewrite Hb. destruct b.
      - rewrite (local_more_true _ Hb). anywhere. pl.
      - intros a s' E1. destruct (pst_simple_name true s a s' E1) as (p & H1 & H2 & H3). exists p.
        split; [assumption|]. split; [apply (has_le 2); [lia|assumption]|]. intros Hh.
        assert (Hf : local_scope_pattern (tx s ++ u) = Ok false); [|rewrite Hf; apply H3; exact I].
        destruct (tx s) as [|q t] eqn:Et; [destruct Hat|].
        destruct (N.eq_dec q (ch "?")) as [->|Hq].
        + apply in_split in H2. destruct H2 as (p1 & p2 & ->). destruct p1 as [|c p1]; [discriminate|].
          cbn [app] in H1. injection H1 as <- ->.
          apply (local_more_false _ p1 (p2 ++ tx s')); [assumption|rewrite <- app_assoc; reflexivity|].
          apply in_or_app. right. exact Hh.
        + cbn [app local_scope_pattern]. apply N.eqb_neq in Hq. rewrite Hq. reflexivity.
    Qed.
    Hint Resolve pst_piece : pst.

    Lemma at_nonempty {A} k c s (f f' : bool -> M A) : (tx s <> [] -> at_ k c s (f false) (f' false)) ->
      (tx s = [] -> forall a s', f true s = Ok (a, s') -> False) ->
      at_ k c s (f (is_empty (tx s))) (f' (is_empty (tx s ++ u))).
    Proof.
      intros H1 H2. destruct (tx s) as [|x t] eqn:Et; cbn [is_empty app].
      - intros a s' E1. exfalso. eapply H2; [reflexivity|exact E1].
      - apply H1. discriminate.
    Qed.
    (** [if text is empty then fail else m] *)
    Lemma pst_nonempty {A} k c e (m m' : M A) : pst k c m m' ->
      pst k c (t <- text ;; if is_empty t then fail e else m) (t <- text ;; if is_empty t then fail e else m').
    Proof.
      intros H. apply pst_text. intros s. apply (at_nonempty k c s (fun b => if b then fail e else m) (fun b => if b then fail e else m')).
      - intros _. apply H.
      - discriminate.
    Qed.
    Lemma pst_scope_loop n : forall n' acc, n <= n' -> pst 0 2 (scope_loop E K n acc) (scope_loop E K' n' acc).
    Proof.
      induction n as [|n IH]; intros n' acc Hn; [apply pst_nofuel|]. destruct n' as [|n']; [lia|]. cbn [scope_loop].
      assert (H : forall acc, pst 0 2 (scope_loop E K n acc) (scope_loop E K' n' acc)) by (intros; apply IH; lia).
      apply (pst_char 2); [exact has_at|norm; pl|norm]. apply pst_nonempty. pl.
    Qed.
    Lemma pst_chain id : pst 0 2 (demangle_name_scope_chain E K id) (demangle_name_scope_chain E K' id).
    Proof.
      unfold demangle_name_scope_chain. apply pst_text. intros s. apply (pst_bind 0 2).
      - apply pst_scope_loop. rewrite app_length. lia.
      - intros l. pl.
    Qed.
    Hint Resolve pst_chain : pst.
    Lemma pst_code_group g : pst 0 1 (demangle_function_identifier_code_group E g) (demangle_function_identifier_code_group E g).
    Proof. unfold demangle_function_identifier_code_group. cbv zeta. pl. Qed.
    Hint Resolve pst_code_group : pst.
    Lemma pst_code : pst 0 1 (demangle_function_identifier_code E) (demangle_function_identifier_code E).
    Proof.
      unfold demangle_function_identifier_code. apply (pst_bind 0 1); [apply pst_expect_one|intros _; norm].
      apply (pst_str 1); [discriminate| |pl|pl].
      intros s a s' Hs E1 _. destruct s as [[t n] x y z]. unfold tx in Hs. cbn [s_ms ms_str] in Hs.
      destruct n as [|n]; shorts Hs; subst t; cbn in E1; discriminate.
    Qed.
    Hint Resolve pst_code : pst.
    Lemma pst_unq_type b : pst 0 1 (demangle_unqualified_type_name E K b) (demangle_unqualified_type_name E K' b).
    Proof.
      unfold demangle_unqualified_type_name. apply pst_text. intros s.
      destruct (tx s) as [|x t] eqn:Et.
      - cbn. intros a s' E1. destruct (pst_simple_name b s a s' E1) as (p & H1 & H2 & H3). rewrite Et in H1.
        symmetry in H1. apply app_eq_nil in H1. destruct H1 as [-> _]. destruct H2.
      - cbn [app first_is first_char]. destruct (is_digit x); [anywhere; pl|].
        destruct (starts_with (L "?$") (x :: t)) eqn:Hs.
        + rewrite (starts_more _ _ Hs : starts_with (L "?$") (x :: t ++ u) = true). anywhere; pl.
        + intros a s' E1. destruct (pst_simple_name b s a s' E1) as (p & H1 & H2 & H3). exists p. split; [assumption|].
          split; [apply (has_le 2); [lia|assumption]|]. intros _.
          change (x :: t ++ u) with ((x :: t) ++ u). rewrite starts_at; [|rewrite <- Et, H1; apply in_or_app; left; exact H2|noat].
          rewrite Hs. apply H3. exact I.
    Qed.
    Hint Resolve pst_unq_type : pst.
    Lemma pst_unq_sym b : pst 0 1 (demangle_unqualified_symbol_name E K b) (demangle_unqualified_symbol_name E K' b).
    Proof.
      unfold demangle_unqualified_symbol_name. apply pst_text. intros s.
      destruct (tx s) as [|x t] eqn:Et.
      - cbn. intros a s' E1. destruct (pst_simple_name (nbb_simple b) s a s' E1) as (p & H1 & H2 & H3). rewrite Et in H1.
        symmetry in H1. apply app_eq_nil in H1. destruct H1 as [-> _]. destruct H2.
      - cbn [app first_is first_char]. destruct (is_digit x); [anywhere; pl|].
        destruct (starts_with (L "?$") (x :: t)) eqn:Hs.
        + rewrite (starts_more _ _ Hs : starts_with (L "?$") (x :: t ++ u) = true). anywhere; pl.
        + destruct (starts_with (L "?") (x :: t)) eqn:Hq.
          * rewrite (starts_more _ _ Hq : starts_with (L "?") (x :: t ++ u) = true).
            intros a s' E1. destruct t as [|y t].
            -- exfalso. unfold starts_with in Hq. change (L "?") with [ch "?"] in Hq. cbn [strip_prefix] in Hq.
               destruct (N.eqb_spec (ch "?") x) as [<-|]; [|discriminate].
               destruct s as [[t n] s2 s3 s4]. unfold tx in Et. cbn [s_ms ms_str] in Et. subst t.
               destruct n; cbn in E1; discriminate.
            -- assert (Hs' : starts_with (L "?$") ((x :: y :: t) ++ u) = false).
               { apply starts_short; [assumption|]. intros (z & r & Hz). cbn in Hz. destruct t; discriminate. }
               cbn [app] in Hs' |- *. rewrite Hs'. apply pst_code. exact E1.
          * assert (Hx : x <> ch "?").
            { intros ->. unfold starts_with in Hq. cbn in Hq. discriminate. }
            assert (Hn : forall p y, starts_with (ch "?" :: p) (x :: y) = false).
            { intros p y. unfold starts_with. cbn [strip_prefix]. destruct (N.eqb_spec (ch "?") x); [congruence|reflexivity]. }
            change (L "?$") with (ch "?" :: L "$"). change (L "?") with (ch "?" :: []). rewrite !Hn. anywhere. pl.
    Qed.
    Hint Resolve pst_unq_sym : pst.
    Lemma pst_fq_type : pst 0 2 (demangle_fully_qualified_type_name E K) (demangle_fully_qualified_type_name E K').
    Proof. unfold demangle_fully_qualified_type_name. pl. Qed.
    Hint Resolve pst_fq_type : pst.
    Lemma pst_fq_sym : pst 0 2 (demangle_fully_qualified_symbol_name E K) (demangle_fully_qualified_symbol_name E K').
    Proof. unfold demangle_fully_qualified_symbol_name. pl. Qed.
    Hint Resolve pst_fq_sym : pst.
    Lemma pst_custom : pst 0 1 (demangle_custom_type E K) (demangle_custom_type E K').
    Proof. unfold demangle_custom_type. pl. Qed.
    Lemma pst_class : pst 0 1 (demangle_class_type E K) (demangle_class_type E K').
    Proof. unfold demangle_class_type. pl. Qed.
    Hint Resolve pst_custom pst_class : pst.
    Lemma pst_params_loop n : forall n' acc, n <= n' -> pst 1 0 (params_loop K n acc) (params_loop K' n' acc).
    Proof.
      induction n as [|n IH]; intros n' acc Hn; [apply pst_nofuel|]. destruct n' as [|n']; [lia|]. cbn [params_loop].
      assert (H : forall acc, pst 1 0 (params_loop K n acc) (params_loop K' n' acc)) by (intros; apply IH; lia).
      apply pst_text. intros s. destruct (tx s) as [|x t] eqn:Et; [intros a s' E1; discriminate|].
      cbn [app first_is first_char is_empty]. apply pst_if; intros _; [pl|].
      apply (pst_bind 1 0); [apply pst_eat_if|intros o; norm]. destruct o as [d|].
      { apply pst_get. intros s1. cbn [ap set_ms s_fps]. pl. }
      clear s Et. intros s. unfold len_chars at 1 3. cbv beta iota delta [bind].
      intros a s' E1. change (ms_chars (s_ms (ap s))) with (ms_chars (s_ms s) + length u).
      destruct (k_type K QDrop s) as [[tn s1]| | |] eqn:Ek; try discriminate.
      destruct (HKt QDrop s tn s1 Ek) as (p & H1 & H2 & H3). unfold len_chars in *.
      change (ms_chars (s_ms (ap s1))) with (ms_chars (s_ms s1) + length u).
      destruct (ms_chars (s_ms s) <? ms_chars (s_ms s1)) eqn:Hlt; [discriminate|].
      assert (Hlt' : ms_chars (s_ms s) + length u <? ms_chars (s_ms s1) + length u = false).
      { apply Nat.ltb_ge in Hlt. apply Nat.ltb_ge. lia. }
      assert (Hd : ms_chars (s_ms s) + length u - (ms_chars (s_ms s1) + length u) = ms_chars (s_ms s) - ms_chars (s_ms s1)) by lia.
      set (mm := fun d : nat => match d with 0 => fail InvalidFunctionParameterList | 1 => ret tt
        | S (S _) => fun s0 => Ok (tt, if length (s_fps s0) <? 10 then set_fps (s_fps s0 ++ [tn]) s0 else s0) end).
      assert (Hmm : forall d, pst 0 0 (mm d) (mm d)).
      { intros [|[|d]]; [apply pst_fail|apply pst_ret|].
        apply (pst_upd (fun s0 => if length (s_fps s0) <? 10 then set_fps (s_fps s0 ++ [tn]) s0 else s0)).
        - intros s0. cbv beta. destruct (length (s_fps s0) <? 10); reflexivity.
        - intros s0. cbn [ap set_ms s_fps]. destruct (length (s_fps s0) <? 10); reflexivity. }
      assert (Hr : pst 1 0 (mm (ms_chars (s_ms s) - ms_chars (s_ms s1)) ;;; params_loop K n (tn :: acc))
                          (mm (ms_chars (s_ms s) - ms_chars (s_ms s1)) ;;; params_loop K' n' (tn :: acc))) by pl.
      destruct (Hr s1 a s' E1) as (q & G1 & G2 & G3). exists (p ++ q). rewrite H1, G1, app_assoc. split; [reflexivity|].
      split; [exact I|]. intros Hh. rewrite H3 by exact I.
      change (ms_chars (s_ms (ap s1))) with (ms_chars (s_ms s1) + length u). rewrite Hlt', Hd. exact (G3 Hh).
    Qed.
    Lemma pst_params : pst 0 1 (demangle_function_parameter_list E K) (demangle_function_parameter_list E K').
    Proof.
      unfold demangle_function_parameter_list. apply (pst_char 1); [apply has_one|norm; pl|norm].
      apply pst_text. intros s. apply (pst_bind 1 0); [apply pst_params_loop; rewrite app_length; lia|intros l; norm]. pl.
    Qed.
    Hint Resolve pst_params : pst.
    Lemma pst_function_type b : pst 0 1 (demangle_function_type E K b) (demangle_function_type E K' b).
    Proof.
      unfold demangle_function_type. apply (pst_bind 0 0).
      - apply pst_if; intros _; [|pl]. pl.
      - intros [q rq]; norm. apply (pst_bind 0 1); [apply pst_cc|intros cc; norm].
        apply (pst_bind 1 0); [apply pst_eat_char|intros st; norm].
        apply (pst_bind 1 0); [pl|intros rt; norm]. pl.
    Qed.
    Hint Resolve pst_function_type : pst.
    Lemma pst_ptr_cv : pst 0 1 demangle_pointer_cv_qualifiers demangle_pointer_cv_qualifiers.
    Proof.
      unfold demangle_pointer_cv_qualifiers. apply (pst_str 1); [discriminate| |pl|pl].
      intros s a s' Hs E1 _. destruct s as [[t n] x y z]. unfold tx in Hs. cbn [s_ms ms_str] in Hs.
      destruct n as [|n]; shorts Hs; subst t; cbn in E1; discriminate.
    Qed.
    Hint Resolve pst_ptr_cv : pst.
    Lemma pst_pointer : pst 0 1 (demangle_pointer_type E K) (demangle_pointer_type E K').
    Proof.
      unfold demangle_pointer_type. pl.
    Qed.
    Lemma pst_member_pointer : pst 0 1 (demangle_member_pointer_type E K) (demangle_member_pointer_type E K').
    Proof. unfold demangle_member_pointer_type. pl. Qed.
    Hint Resolve pst_pointer pst_member_pointer : pst.
    Lemma pst_dims n : forall n' rank acc, n <= n' -> pst 0 0 (dims_loop E n rank acc) (dims_loop E n' rank acc).
    Proof.
      induction n as [|n IH]; intros n' rank acc Hn.
      - cbn [dims_loop]. destruct (rank =? 0)%N eqn:Hr; [|apply pst_nofuel]. destruct n'; cbn [dims_loop]; rewrite Hr; pl.
      - destruct n' as [|n']; [lia|]. cbn [dims_loop].
        assert (H : forall rank acc, pst 0 0 (dims_loop E n rank acc) (dims_loop E n' rank acc)) by (intros; apply IH; lia). pl.
    Qed.
    Lemma short_dollars p s : short (ch "$" :: ch "$" :: p) (tx s) -> p <> [] -> length p <= 1 -> tx s = [] \/ tx s = L "$" \/ tx s = L "$$".
    Proof.
      intros Hs Hp Hl. apply short_cons in Hs. destruct Hs as [Hs|(t & Hs & Hs')]; [auto|].
      apply short_cons in Hs'. destruct Hs' as [->|(t' & -> & Hs')]; [auto|].
      destruct Hs' as (x & r & ->). destruct t' as [|y t']; [auto|]. rewrite app_length in Hl. cbn in Hl. lia.
    Qed.
    Lemma no_type s a s' : tx s = [] \/ tx s = L "$" \/ tx s = L "$$" -> k_type K QDrop s = Ok (a, s') -> False.
    Proof.
      intros [H|H] Ek; [|eapply HKd; eassumption].
      destruct (HKt QDrop s a s' Ek) as (p & H1 & H2 & _). rewrite H in H1. symmetry in H1. apply app_eq_nil in H1.
      destruct H1 as [-> _]. apply H2. reflexivity.
    Qed.
    Lemma pst_array : pst 0 1 (demangle_array_type E K) (demangle_array_type E K').
    Proof.
      unfold demangle_array_type. apply (pst_bind 0 1); [apply pst_expect_one|intros _; norm].
      apply (pst_bind 0 1); [apply pst_number|intros [rank neg]; norm]. apply pst_if; intros _; [pl|].
      apply pst_text. intros s. apply (pst_bind 0 0); [apply pst_dims; rewrite app_length; lia|intros l; norm].
      apply (pst_bind 0 0); [apply pst_intern|intros dims; norm].
      apply (pst_str 1); [discriminate| |pl|pl].
      clear s. intros s a s' Hs E1 _. apply short_dollars in Hs; [|discriminate|cbn; lia].
      unfold bind, ret in E1. destruct (k_type K QDrop s) as [[t s1]| | |] eqn:Ek; try discriminate.
      eapply no_type; eassumption.
    Qed.
    Hint Resolve pst_array : pst.

    Lemma pst_primitive : pst 0 1 (demangle_primitive_type E) (demangle_primitive_type E).
    Proof.
      unfold demangle_primitive_type, demangle_primitive_kind. apply (pst_bind 0 1); [|intros k; norm; pl].
      apply (pst_str 1); [discriminate| |pl|pl].
      intros s a s' Hs E1 _. destruct s as [[t n] x y z]. unfold tx in Hs. cbn [s_ms ms_str] in Hs.
      destruct n as [|n]; shorts Hs; subst t; cbn in E1; discriminate.
    Qed.
    Hint Resolve pst_primitive : pst.
    Lemma member_more t b : is_member_pointer t = Some b -> is_member_pointer (t ++ u) = Some b.
    Proof.
      destruct t as [|c t]; [discriminate|]. cbn [is_member_pointer app].
      destruct (one_of (L "$A") c); [auto|]. destruct (one_of (L "PQRS") c); [|discriminate].
      assert (Hskip : forall x y, skip x y <> [] -> skip x (y ++ u) = skip x y ++ u).
      { intros x [|z y] H; [contradiction|]. cbn in *. destruct (z =? x)%N; reflexivity. }
      assert (Hne : forall x y, skip x y <> [] -> y <> []) by (intros x [|z y] H; [contradiction|discriminate]).
      set (rest := fun s2 : str => match skip (ch "F") (skip (ch "I") (skip (ch "E") s2)) with
        | [] => None | c3 :: _ => if one_of (L "ABCD") c3 then Some false else if one_of (L "QRST") c3 then Some true else None end).
      assert (Hrest : forall y, rest y = Some b -> rest (y ++ u) = Some b).
      { intros y. unfold rest. destruct (skip (ch "F") (skip (ch "I") (skip (ch "E") y))) as [|c3 r] eqn:E3; [discriminate|]. intros H.
        assert (N3 : skip (ch "F") (skip (ch "I") (skip (ch "E") y)) <> []) by (rewrite E3; discriminate).
        pose proof (Hne _ _ N3) as N2. pose proof (Hne _ _ N2) as N1.
        rewrite (Hskip _ _ N1), (Hskip _ _ N2), (Hskip _ _ N3), E3. exact H. }
      destruct t as [|d t]; [cbn; discriminate|]. cbn [app].
      destruct (is_digit d); [auto|]. intros H. exact (Hrest (d :: t) H).
    Qed.
    (** The choice of the type's form. *)
    Lemma pst_type_form : pst 0 1
        (s <- text ;;
         if is_empty s then fail InvalidType
         else if is_tag_type s then demangle_class_type E K
             else if is_pointer_type s then
               match is_member_pointer s with
               | Some true => demangle_member_pointer_type E K
               | Some false => demangle_pointer_type E K
               | None => fail InvalidType
               end
             else if is_array_type s then demangle_array_type E K
             else if is_function_type s then
               a8 <- eat_str (L "$$A8@@") ;;
               if a8 then demangle_function_type E K true
               else a6 <- eat_str (L "$$A6") ;;
                    if a6 then demangle_function_type E K false else fail InvalidType
             else if is_custom_type s then demangle_custom_type E K
             else demangle_primitive_type E)
        (s <- text ;;
         if is_empty s then fail InvalidType
         else if is_tag_type s then demangle_class_type E K'
             else if is_pointer_type s then
               match is_member_pointer s with
               | Some true => demangle_member_pointer_type E K'
               | Some false => demangle_pointer_type E K'
               | None => fail InvalidType
               end
             else if is_array_type s then demangle_array_type E K'
             else if is_function_type s then
               a8 <- eat_str (L "$$A8@@") ;;
               if a8 then demangle_function_type E K' true
               else a6 <- eat_str (L "$$A6") ;;
                    if a6 then demangle_function_type E K' false else fail InvalidType
             else if is_custom_type s then demangle_custom_type E K'
             else demangle_primitive_type E).
    Proof.
      apply pst_text. intros s. destruct (tx s) as [|x t] eqn:Et; [intros a s' E1; discriminate|].
      unfold is_tag_type, is_pointer_type, is_array_type, is_custom_type.
      cbn [app is_empty first_is first_char]. change (x :: t ++ u) with ((x :: t) ++ u).
      destruct (one_of (L "TUVW") x); [anywhere; pl|].
      destruct (one_of (L "APQRS") x) eqn:Hp.
      - rewrite !Bool.orb_true_r. destruct (is_member_pointer (x :: t)) as [b|] eqn:Hm; [|anywhere; pl].
        rewrite (member_more _ _ Hm). anywhere. pl.
      - rewrite !Bool.orb_false_r. destruct (starts_with (L "$$Q") (x :: t)) eqn:Hq.
        + rewrite (starts_more _ _ Hq). destruct (is_member_pointer (x :: t)) as [b|] eqn:Hm; [|anywhere; pl].
          rewrite (member_more _ _ Hm). anywhere. pl.
        + destruct (x =? ch "Y")%N eqn:Hy.
          { apply N.eqb_eq in Hy. subst x. assert (Hd : starts_with (L "$$Q") ((ch "Y" :: t) ++ u) = false) by reflexivity.
            rewrite Hd. anywhere. pl. }
          destruct (is_function_type (x :: t)) eqn:Hf.
          * assert (Hf' : is_function_type ((x :: t) ++ u) = true).
            { unfold is_function_type in *. apply Bool.orb_true_iff in Hf. apply Bool.orb_true_iff.
              destruct Hf as [Hf|Hf]; [left|right]; apply starts_more; assumption. }
            assert (Hq' : starts_with (L "$$Q") ((x :: t) ++ u) = false).
            { unfold is_function_type in Hf. unfold starts_with in *. 
              destruct (strip_prefix (L "$$A8@@") (x :: t)) as [r|] eqn:H8.
              - apply strip_prefix_spec in H8. rewrite H8. reflexivity.
              - destruct (strip_prefix (L "$$A6") (x :: t)) as [r|] eqn:H6; [|discriminate].
                apply strip_prefix_spec in H6. rewrite H6. reflexivity. }
            rewrite Hf', Hq'. intros a s' E1. rewrite <- Et in *.
            assert (Hns : ~ short (L "$$A8@@") (tx s) \/ starts_with (L "$$A8@@") (tx s) = true).
            { unfold is_function_type in Hf. apply Bool.orb_true_iff in Hf. destruct Hf as [Hf|Hf]; [auto|left].
              unfold starts_with in Hf. destruct (strip_prefix (L "$$A6") (tx s)) as [r|] eqn:H6; [|discriminate].
              apply strip_prefix_spec in H6. rewrite H6. intros Hs. do 3 (apply short_cons in Hs; destruct Hs as [Hs|(tt & Hs & Hs')]; [discriminate|injection Hs as <-; rename Hs' into Hs]).
              apply short_cons in Hs. destruct Hs as [Hs|(tt & Hs & _)]; discriminate. }
            unfold bind in E1 |- *. destruct (eat_str (L "$$A8@@") s) as [[b s1]| | |] eqn:E8; try discriminate.
            destruct (eat_str_cases _ _ _ _ E8) as [(-> & Ht & Ha)|(-> & -> & Ha)].
            -- destruct (pst_function_type true s1 a s' E1) as (p & H1 & H2 & H3). exists (L "$$A8@@" ++ p).
               rewrite Ht, H1, app_assoc. split; [reflexivity|]. split; [discriminate|]. intros _. rewrite Ha. apply H3. exact I.
            -- destruct Hns as [Hns|Hns].
               ++ rewrite (Ha Hns). destruct (eat_str (L "$$A6") s) as [[b s1]| | |] eqn:E6; try discriminate.
                  destruct (eat_str_cases _ _ _ _ E6) as [(-> & Ht & Hb)|(-> & -> & Hb)]; [|discriminate].
                  destruct (pst_function_type false s1 a s' E1) as (p & H1 & H2 & H3). exists (L "$$A6" ++ p).
                  rewrite Ht, H1, app_assoc. split; [reflexivity|]. split; [discriminate|]. intros _. rewrite Hb. apply H3. exact I.
               ++ exfalso. clear - E8 Hns. unfold starts_with in Hns. unfold eat_str, bind, lift, try_consume_str in E8. unfold tx in Hns.
                  destruct (strip_prefix _ _) as [r|]; [|discriminate]. destruct (ms_drop _ _ _); discriminate.
          * destruct (N.eqb_spec x (ch "?")) as [->|Hx].
            { assert (Hn : starts_with (L "$$Q") ((ch "?" :: t) ++ u) = false /\ is_function_type ((ch "?" :: t) ++ u) = false) by (split; reflexivity).
              destruct Hn as [-> ->]. anywhere. pl. }
            (* a primitive type *)
            intros a s' E1. destruct (pst_primitive s a s' E1) as (p & H1 & H2 & H3). exists p.
            split; [assumption|]. split; [assumption|]. intros _.
            destruct (N.eq_dec x (ch "$")) as [->|Hd].
            -- (* only $$T *)
               assert (Ht : exists r, t = L "$T" ++ r).
               { clear - u E1 Et. destruct s as [[w n] s2 s3 s4]. unfold tx in Et. cbn [s_ms ms_str] in Et. subst w.
                 unfold demangle_primitive_type, demangle_primitive_kind, bind in E1.
                 destruct (eat_str _ _) as [[b s1]| | |] eqn:E2; try discriminate. destruct (eat_str_cases _ _ _ _ E2) as [(-> & Ht & _)|(-> & -> & _)].
                 - unfold tx in Ht at 1. cbn [s_ms ms_str] in Ht. injection Ht as Ht. eexists. exact Ht.
                 - exfalso. destruct n; cbn in E1; discriminate. }
               destruct Ht as [r ->].
               assert (Hn : starts_with (L "$$Q") ((ch "$" :: L "$T" ++ r) ++ u) = false /\ is_function_type ((ch "$" :: L "$T" ++ r) ++ u) = false) by (split; reflexivity).
               destruct Hn as [-> ->]. apply H3. exact I.
            -- assert (Hn : forall q, starts_with (ch "$" :: q) ((x :: t) ++ u) = false).
               { intros q. unfold starts_with. cbn [strip_prefix app]. destruct (N.eqb_spec (ch "$") x); [congruence|reflexivity]. }
               unfold is_function_type. change (L "$$Q") with (ch "$" :: L "$Q"). change (L "$$A8@@") with (ch "$" :: L "$A8@@").
               change (L "$$A6") with (ch "$" :: L "$A6"). rewrite !Hn. cbn [orb]. apply H3. exact I.
    Qed.
    Lemma pst_ext {A} k c (m n m' n' : M A) : (forall s, m s = n s) -> (forall s, m' s = n' s) -> pst k c n n' -> pst k c m m'.
    Proof. intros H1 H2 H s a s' E1. rewrite H1 in E1. destruct (H s a s' E1) as (p & G1 & G2 & G3). exists p. rewrite H2. auto. Qed.
    Lemma text_assoc {A B} e (X : str -> M A) (g : A -> M B) s :
      (t <- text ;; if is_empty t then fail e else (x <- X t ;; g x)) s =
      (x <- (t <- text ;; if is_empty t then fail e else X t) ;; g x) s.
    Proof. unfold bind, text. destruct (is_empty _); reflexivity. Qed.
    Lemma pst_type m : pst 0 1 (demangle_type E K m) (demangle_type E K' m).
    Proof.
      unfold demangle_type. apply (pst_bind 1 0).
      - destruct m; pl.
      - intros q; norm. eapply (pst_ext _ _ _ (bind _ (fun ty => modify KType ty (append_quals q) ;;; ret ty))
                                          _ (bind _ (fun ty => modify KType ty (append_quals q) ;;; ret ty))).
        3: { eapply pst_bind; [exact pst_type_form|]. intros ty; norm. pl. }
        + intros s. apply text_assoc.
        + intros s. apply text_assoc.
    Qed.
    Lemma type_dollar s a s' : tx s = L "$" \/ tx s = L "$$" -> demangle_type E K QDrop s = Ok (a, s') -> False.
    Proof.
      intros H E1. destruct s as [[t n] x y z]. unfold tx in H. cbn [s_ms ms_str] in H.
      destruct n as [|n], H as [-> | ->]; cbn in E1; discriminate.
    Qed.

    (** Template arguments: an at-sign follows. *)
    Lemma pst_offsets n : pst 0 0 (read_offsets n) (read_offsets n).
    Proof. induction n; cbn [read_offsets]; pl. Qed.
    Hint Resolve pst_offsets : pst.
    Lemma pst_template_symbol : pst 2 0 (template_symbol E K) (template_symbol E K').
    Proof.
      unfold template_symbol. apply pst_text. intros s. destruct (tx s) as [|x t] eqn:Et.
      - intros a s' E1. cbn in E1. injection E1 as <- <-. exists []. rewrite Et. repeat split. intros [].
      - assert (Hq : starts_with (L "?") ((x :: t) ++ u) = starts_with (L "?") (x :: t)).
        { change (L "?") with [ch "?"]. unfold starts_with. cbn [app strip_prefix]. destruct (_ =? _)%N; reflexivity. }
        rewrite Hq. anywhere. pl.
    Qed.
    Hint Resolve pst_template_symbol : pst.
    Lemma pst_lit p : existsb (fun c => c =? ch "@")%N p = false -> pst 2 0 (eat_str p) (eat_str p).
    Proof.
      intros H. apply pst_eat_str2. intros Hi. assert (existsb (fun c => c =? ch "@")%N p = true); [|congruence].
      apply existsb_exists. exists (ch "@"). auto.
    Qed.
    Lemma pst_lits l : forallb (fun p => negb (existsb (fun c => c =? ch "@")%N p)) l = true -> pst 2 0 (eat_first l) (eat_first l).
    Proof.
      intros H. apply pst_eat_first. rewrite forallb_forall in H. apply Forall_forall. intros p Hp Hi.
      specialize (H p Hp). apply Bool.negb_true_iff in H. assert (existsb (fun c => c =? ch "@")%N p = true); [|congruence].
      apply existsb_exists. exists (ch "@"). auto.
    Qed.
    Lemma pst_template_arg : pst 2 0 (template_arg E K) (template_arg E K').
    Proof.
      unfold template_arg.
      apply (pst_bind 2 0); [apply pst_lit; reflexivity|intros auto; norm].
      apply (pst_bind 1 0); [pl|intros _; norm].
      apply (pst_bind 2 0); [apply pst_lit; reflexivity|intros y; norm]. apply pst_if; intros _; [pl|].
      apply (pst_bind 2 0); [apply pst_lit; reflexivity|intros b; norm]. apply pst_if; intros _; [pl|].
      apply (pst_bind 2 0); [apply pst_lit; reflexivity|intros c; norm]. apply pst_if; intros _; [pl|].
      apply (pst_bind 2 0); [apply pst_lits; destruct auto; reflexivity|intros m; norm].
      destruct m as [p|]; [pl|].
      assert (Hrest : pst 2 0 (d <- eat_first (if auto then [L "F"; L "G"] else [L "$F"; L "$G"]) ;;
      match d with
      | Some p =>
        match data_member_count p with
        | None => fail InvalidTemplateParameterList
        | Some count =>
          offs <- read_offsets count ;;
          intern E (NTpr None offs None true)
        end
      | None =>
        z <- eat_str (if auto then L "0" else L "$0") ;;
        if z then
          '(v, neg) <- demangle_number ;; intern E (NInt v neg)
        else k_type K QDrop
      end) (d <- eat_first (if auto then [L "F"; L "G"] else [L "$F"; L "$G"]) ;;
      match d with
      | Some p =>
        match data_member_count p with
        | None => fail InvalidTemplateParameterList
        | Some count =>
          offs <- read_offsets count ;;
          intern E (NTpr None offs None true)
        end
      | None =>
        z <- eat_str (if auto then L "0" else L "$0") ;;
        if z then
          '(v, neg) <- demangle_number ;; intern E (NInt v neg)
        else k_type K' QDrop
      end)).
      { apply (pst_bind 2 0); [apply pst_lits; destruct auto; reflexivity|intros d; norm]. destruct d as [p|]; [pl|].
        apply (pst_bind 2 0); [apply pst_lit; destruct auto; reflexivity|intros z; norm]. pl. }
      apply pst_text. intros s. destruct (starts_with (L "$E?") (tx s)) eqn:Hs.
      - rewrite (starts_more _ _ Hs). anywhere. apply (pst_bind 0 1); [apply pst_expect_str; discriminate|intros _; norm]. pl.
      - eapply at_with_at; [exact Hrest|]. intros Hat. rewrite starts_at by (assumption || noat). rewrite Hs. apply Hrest.
    Qed.
    Hint Resolve pst_template_arg : pst.
    Lemma pst_targs_loop n : forall n' acc, n <= n' -> pst 0 2 (targs_loop E K n acc) (targs_loop E K' n' acc).
    Proof.
      induction n as [|n IH]; intros n' acc Hn; [apply pst_nofuel|]. destruct n' as [|n']; [lia|]. cbn [targs_loop].
      assert (H : forall acc, pst 0 2 (targs_loop E K n acc) (targs_loop E K' n' acc)) by (intros; apply IH; lia).
      apply (pst_char 2); [exact has_at|norm; pl|norm].
      apply (pst_bind 2 0); [apply pst_lits; reflexivity|intros sep; norm]. destruct sep as [p|]; [pl|].
      apply pst_nonempty. pl.
    Qed.
    Lemma pst_targs : pst 0 2 (demangle_template_parameter_list E K) (demangle_template_parameter_list E K').
    Proof.
      unfold demangle_template_parameter_list. apply pst_text. intros s. apply (pst_bind 0 2).
      - apply pst_targs_loop. rewrite app_length. lia.
      - intros l. norm. pl.
    Qed.
    Hint Resolve pst_targs : pst.
    Lemma pst_tinst b : pst 0 2 (demangle_template_instantiation_name E K b) (demangle_template_instantiation_name E K' b).
    Proof.
      unfold demangle_template_instantiation_name. apply (pst_bind 0 1); [apply pst_expect_str; discriminate|intros _; norm].
      apply pst_get. intros o. cbn [ap set_ms s_names s_fps].
      apply (pst_bind 0 0); [apply (pst_upd (fun s => set_names [] (set_fps [] s))); reflexivity|intros _; norm].
      apply (pst_bind 0 1); [apply pst_unq_sym|intros id; norm].
      apply (pst_bind 0 2); [apply pst_targs|intros tp; norm].
      apply (pst_bind 0 0); [apply pst_modify|intros _; norm].
      apply (pst_bind 0 0); [apply (pst_upd (fun s => set_names (s_names o) (set_fps (s_fps o) s))); reflexivity|intros _; norm].
      pl.
    Qed.

    (** Encodings. *)
    Lemma pst_variable_encoding sc : pst 0 1 (demangle_variable_encoding E K sc) (demangle_variable_encoding E K' sc).
    Proof. unfold demangle_variable_encoding. pl. Qed.
    Lemma pst_this_adjust fc : pst 0 0 (this_adjust fc) (this_adjust fc).
    Proof. unfold this_adjust. pl. Qed.
    Hint Resolve pst_variable_encoding pst_this_adjust : pst.
    Lemma pst_function_encoding : pst 0 1 (demangle_function_encoding E K) (demangle_function_encoding E K').
    Proof.
      unfold demangle_function_encoding. cbv zeta. apply (pst_str 1); [discriminate| | |].
      - intros s a s' Hs E1 _. destruct s as [[t n] x y z]. unfold tx in Hs. cbn [s_ms ms_str] in Hs.
        destruct n as [|[|[|n]]]; shorts Hs; subst t; cbn in E1; discriminate.
      - norm. apply pst_nonempty. pl.
      - apply pst_nonempty. pl.
    Qed.
    Hint Resolve pst_function_encoding : pst.
    Lemma pst_encoded q : pst 0 1 (demangle_encoded_symbol E K q) (demangle_encoded_symbol E K' q).
    Proof.
      unfold demangle_encoded_symbol. apply pst_text. intros s. destruct (tx s) as [|x t]; [intros a s' E1; discriminate|].
      cbn [app first_char]. anywhere. pl.
    Qed.
    Hint Resolve pst_encoded : pst.
    Lemma pst_declarator : pst 0 2 (demangle_declarator E K) (demangle_declarator E K').
    Proof. unfold demangle_declarator. pl. Qed.
    Hint Resolve pst_declarator : pst.
    (** Special symbols. *)
    Lemma pst_special_table k : pst 0 2 (demangle_special_table_symbol_node E K k) (demangle_special_table_symbol_node E K' k).
    Proof. unfold demangle_special_table_symbol_node. pl. Qed.
    Lemma pst_untyped nm : pst 0 2 (demangle_untyped_variable E K nm) (demangle_untyped_variable E K' nm).
    Proof. unfold demangle_untyped_variable. pl. Qed.
    Lemma pst_bcd : pst 0 2 (demangle_rtti_base_class_descriptor_node E K) (demangle_rtti_base_class_descriptor_node E K').
    Proof. unfold demangle_rtti_base_class_descriptor_node. pl. Qed.
    Lemma pst_expect_ats e : pst 0 2 (expect_str (L "@@") e) (expect_str (L "@@") e).
    Proof. apply pst_expect_str. left. reflexivity. Qed.
    Hint Resolve pst_expect_ats : pst.
    Lemma pst_init_fini d : pst 0 2 (demangle_init_fini_stub E K d) (demangle_init_fini_stub E K' d).
    Proof. unfold demangle_init_fini_stub. pl. Qed.
    Lemma pst_vcall : pst 0 2 (demangle_vcall_thunk_node E K) (demangle_vcall_thunk_node E K').
    Proof.
      unfold demangle_vcall_thunk_node. apply (pst_bind 0 0); [apply pst_intern|intros v; norm].
      apply (pst_bind 0 2); [apply pst_chain|intros qn; norm].
      apply (pst_bind 0 1); [apply pst_expect_str; discriminate|intros _; norm]. pl.
    Qed.
    Lemma pst_guard th : pst 1 2 (demangle_local_static_guard E K th) (demangle_local_static_guard E K' th).
    Proof.
      unfold demangle_local_static_guard. apply (pst_bind 0 0); [apply pst_intern|intros v; norm].
      apply (pst_bind 0 2); [apply pst_chain|intros qn; norm].
      assert (Hend : forall vis, pst 1 0 (s <- text ;;
        (if is_empty s then ret tt
         else n <- demangle_unsigned ;; i <- to_u32 n InvalidLocalStaticGuard ;; modify KLsg v (set_scope_index i)) ;;;
        intern E (NLsgVar qn vis)) (s <- text ;;
        (if is_empty s then ret tt
         else n <- demangle_unsigned ;; i <- to_u32 n InvalidLocalStaticGuard ;; modify KLsg v (set_scope_index i)) ;;;
        intern E (NLsgVar qn vis))).
      { intros vis. apply pst_text. intros s. destruct (tx s) as [|x t] eqn:Et; cbn [is_empty app]; [|anywhere; pl].
        intros a s' E1. assert (Hq : pst 0 0 (ret tt ;;; intern E (NLsgVar qn vis)) (ret tt ;;; intern E (NLsgVar qn vis))) by pl.
        destruct (Hq s a s' E1) as (p & H1 & H2 & _). exists p. repeat split; [assumption|]. intros Hh. exfalso.
        rewrite Et in H1. symmetry in H1. apply app_eq_nil in H1. destruct H1 as [_ H1]. apply Hh, H1. }
      apply (pst_str 1); [discriminate| | |].
      - intros s a s' Hs E1 _. destruct s as [[t n] x y z]. unfold tx in Hs. cbn [s_ms ms_str] in Hs.
        destruct n as [|n]; shorts Hs; subst t; cbn in E1; discriminate.
      - norm. eapply pst_ext; [| |apply (Hend false)]; reflexivity.
      - apply pst_assoc. apply (pst_char 1); [apply has_one|norm|norm; cbv match; apply pst_bind_fail].
        eapply pst_ext; [| |apply (Hend true)]; reflexivity.
    Qed.
    Lemma at_end {A} k c e (m m' : M A) : 1 <= k -> pst k 0 m m -> c = 0 ->
      pst k c (t <- text ;; if is_empty t then m else fail e) (t <- text ;; if is_empty t then m' else fail e).
    Proof.
      intros Hk Hm ->. apply pst_text. intros s. destruct (tx s) as [|x t] eqn:Et; cbn [is_empty app]; [|apply pst_fail].
      intros a s' E1. destruct (Hm s a s' E1) as (p & H1 & H2 & _). exists p. repeat split; [assumption|]. intros Hh. exfalso.
      rewrite Et in H1. symmetry in H1. apply app_eq_nil in H1. destruct H1 as [_ H1]. apply (has_le k 1) in Hh; [|assumption]. apply Hh, H1.
    Qed.
    Lemma pst_rtti_td : pst 1 2 (rtti_type_descriptor E K) (rtti_type_descriptor E K').
    Proof.
      unfold rtti_type_descriptor. apply (pst_bind 0 1); [apply HKt|intros t; norm].
      apply (pst_bind 0 2); [apply pst_expect_str; left; reflexivity|intros _; norm].
      apply at_end; [lia|pl|reflexivity].
    Qed.
    Lemma pst_typeinfo : pst 1 1 (demangle_typeinfo_name E K) (demangle_typeinfo_name E K').
    Proof.
      unfold demangle_typeinfo_name. apply (pst_bind 0 1); [apply pst_expect_one|intros t; norm].
      apply (pst_bind 0 1); [apply HKt|intros t'; norm].
      apply at_end; [lia|pl|reflexivity].
    Qed.
    Lemma pst_wide n : forall n' len tr ob, n <= n' -> pst 0 2 (wide_loop E n len tr ob) (wide_loop E n' len tr ob).
    Proof.
      induction n as [|n IH]; intros n' len tr ob Hn; [apply pst_nofuel|]. destruct n' as [|n']; [lia|]. cbn [wide_loop].
      assert (H : forall len tr ob, pst 0 2 (wide_loop E n len tr ob) (wide_loop E n' len tr ob)) by (intros; apply IH; lia).
      apply (pst_char 2); [exact has_at|norm; pl|norm]. apply pst_text. intros s.
      destruct (str_bytes (tx s) <? 2) eqn:Hb; [apply pst_fail|].
      replace (str_bytes (tx s ++ u) <? 2) with false
        by (symmetry; apply Nat.ltb_ge in Hb; apply Nat.ltb_ge; rewrite str_bytes_app; lia).
      anywhere. pl.
    Qed.
    Lemma pst_narrow n : forall n' acc, n <= n' -> pst 0 2 (narrow_loop n acc) (narrow_loop n' acc).
    Proof.
      induction n as [|n IH]; intros n' acc Hn; [apply pst_nofuel|]. destruct n' as [|n']; [lia|]. cbn [narrow_loop].
      assert (H : forall acc, pst 0 2 (narrow_loop n acc) (narrow_loop n' acc)) by (intros; apply IH; lia).
      apply (pst_char 2); [exact has_at|norm; pl|norm]. apply pst_nonempty. pl.
    Qed.
    Lemma pst_narrow_out bytes sz num tr count : forall i ob,
      pst 0 0 (narrow_out E bytes sz num i count tr ob) (narrow_out E bytes sz num i count tr ob).
    Proof. induction count; intros i ob; cbn [narrow_out]; pl. Qed.
    Hint Resolve pst_narrow_out : pst.
    Lemma pst_take b : pst 0 0 (take_text b) (take_text b).
    Proof. unfold take_text. pl. Qed.
    Hint Resolve pst_take : pst.
    Lemma pst_string_literal : pst 0 2 (demangle_string_literal E) (demangle_string_literal E).
    Proof.
      unfold demangle_string_literal. apply (pst_bind 0 2); [apply pst_expect_str; left; reflexivity|intros _; norm].
      apply (pst_bind 0 1); [apply pst_next|intros f; norm]. apply (pst_bind 0 0); [pl|intros w; norm].
      apply (pst_bind 0 1); [apply pst_number|intros [len neg]; norm]. apply pst_if; intros _; [pl|].
      apply pst_text. intros s.
      destruct (find_char (ch "@") (tx s)) as [i|] eqn:Hf; [|apply pst_fail]. rewrite (find_more _ _ _ Hf).
      anywhere. apply (pst_bind 0 0); [apply pst_ok_or|intros crc; norm]. apply pst_n_bytes. intros _.
      apply pst_text. clear s Hf. intros s. destruct (tx s) as [|x t] eqn:Et; [intros a s' E1; discriminate|].
      cbn [is_empty app]. apply (pst_bind 0 0).
      - apply pst_if; intros _; cbv zeta.
        + apply (pst_bind 0 2); [apply pst_wide; cbn; rewrite app_length; lia|intros ob; norm]. pl.
        + apply (pst_bind 0 2); [apply pst_narrow; cbn; rewrite app_length; lia|intros ob; norm]. pl.
      - intros [[ob k] tr]; norm. pl.
    Qed.
    Hint Resolve pst_special_table pst_untyped pst_bcd pst_init_fini pst_vcall pst_guard pst_rtti_td pst_typeinfo pst_string_literal : pst.
    (** The handlers of [demangle_special_intrinsic]; three of them look at the end of the text. *)
    Definition at_end_kind (k : sik) : bool :=
      match k with SLocalStaticGuard | SLocalStaticThreadGuard | SRttiTypeDescriptor => true | _ => false end.
    Definition special_rest (K : knot) (o : option sik) : M handle :=
      match o with
      | None => demangle_declarator E K
      | Some k => match k with
           | SStringLiteralSymbol => demangle_string_literal E
           | SVftable | SVbtable | SLocalVftable | SRttiCompleteObjLocator =>
             demangle_special_table_symbol_node E K k
           | SVcallThunk => demangle_vcall_thunk_node E K
           | SLocalStaticGuard => demangle_local_static_guard E K false
           | SLocalStaticThreadGuard => demangle_local_static_guard E K true
           | SRttiTypeDescriptor => rtti_type_descriptor E K
           | SRttiBaseClassArray => demangle_untyped_variable E K (L "`RTTI Base Class Array'")
           | SRttiClassHierarchyDescriptor => demangle_untyped_variable E K (L "`RTTI Class Hierarchy Descriptor'")
           | SRttiBaseClassDescriptor => demangle_rtti_base_class_descriptor_node E K
           | SDynamicInitializer => demangle_init_fini_stub E K false
           | SDynamicAtexitDestructor => demangle_init_fini_stub E K true
           | STypeof | SUdtReturning => fail InvalidSpecialIntrinsic
           end
      end.
    Definition rest_level (o : option sik) : nat :=
      match o with Some k => if at_end_kind k then 1 else 0 | None => 0 end.
    Lemma pst_special_rest o : pst (rest_level o) 2 (special_rest K o) (special_rest K' o).
    Proof. destruct o as [[]|]; cbn [special_rest rest_level at_end_kind]; pl. Qed.
    Lemma some_match {A} (X D : M A) s :
      (x <- (h <- X ;; ret (Some h)) ;; match x with Some h => ret h | None => D end) s = X s.
    Proof. unfold bind, ret. destruct (X s) as [[? ?]| | |]; reflexivity. Qed.
    Lemma bind_ext2 {A B C} (m : M A) (f : A -> M B) (g : B -> M C) (h : A -> M C) :
      (forall a s, bind (f a) g s = h a s) -> forall s, bind (bind m f) g s = bind m h s.
    Proof.
      intros H s. transitivity (bind m (fun a => bind (f a) g) s).
      - unfold bind. destruct (m s) as [[a s1]| | |]; reflexivity.
      - unfold bind at 1 3. destruct (m s) as [[a s1]| | |]; [apply H|..]; reflexivity.
    Qed.
    Lemma special_split J s : (o <- demangle_special_intrinsic E J ;; match o with Some h => ret h | None => demangle_declarator E J end) s =
      (o <- consume_special special_table ;; special_rest J o) s.
    Proof.
      unfold demangle_special_intrinsic. apply bind_ext2. clear s. intros [k|] s; [|reflexivity].
      rewrite some_match. reflexivity.
    Qed.
    Lemma consume_special_which t s k s1 : consume_special t s = Ok (Some k, s1) -> exists p, In (p, k) t /\ tx s = p ++ tx s1.
    Proof.
      induction t as [|[p j] t IH]; cbn [consume_special]; [discriminate|]. unfold bind.
      destruct (eat_str p s) as [[b s2]| | |] eqn:Ee; try discriminate.
      destruct (eat_str_cases _ _ _ _ Ee) as [(-> & Ht & _)|(-> & -> & _)]; intros H.
      - injection H as <- <-. exists p. split; [left; reflexivity|assumption].
      - destruct (IH H) as (q & Hq & Ht). exists q. split; [right; assumption|assumption].
    Qed.
    Lemma pst_specials : pst 2 0 (consume_special special_table) (consume_special special_table).
    Proof. apply pst_consume_special. repeat (constructor; [noat|]). constructor. Qed.

    Lemma pst_r4 : pst 2 0 (eat_str (L "??_R4@")) (eat_str (L "??_R4@")).
    Proof.
      intros s b s1 Ee. destruct (eat_str_cases _ s b s1 Ee) as [(-> & Ht & Ha)|(-> & -> & Ha)].
      - exists (L "??_R4@"). rewrite Ha. repeat split. assumption.
      - exists []. repeat split. intros Hin. apply Ha. intros Hs. cbn [has] in Hin.
        shorts Hs; rewrite Hs in Hin; revert Hin; noat.
    Qed.
    Lemma pst_md5 : pst 2 1 (demangle_md5_name E) (demangle_md5_name E).
    Proof.
      unfold demangle_md5_name. apply pst_text. intros s0. anywhere. generalize (tx s0). clear s0. intros t0.
      apply (pst_bind 0 1); [apply pst_expect_str; discriminate|intros _; norm].
      apply pst_text. intros s.
      destruct (find_char (ch "@") (tx s)) as [i|] eqn:Hf; [|apply pst_fail]. rewrite (find_more _ _ _ Hf).
      anywhere. apply (pst_bind 0 0); [apply pst_ok_or|intros stop; norm]. apply pst_n_bytes. intros _.
      apply (pst_bind 2 0); [apply pst_r4|intros r4; norm]. cbv zeta.
      destruct (split_bytes _ t0) as [[md rest]|] eqn:Es; [|apply pst_panic].
      rewrite (split_more _ _ _ _ Es). pl.
    Qed.
    (** An ordinary symbol: everything after the first question mark. *)
    Lemma pst_symbol : pst 1 2
      (o <- demangle_special_intrinsic E K ;; match o with Some h => ret h | None => demangle_declarator E K end)
      (o <- demangle_special_intrinsic E K' ;; match o with Some h => ret h | None => demangle_declarator E K' end).
    Proof.
      eapply pst_ext; [apply special_split|apply special_split|]. apply (pst_bind 2 0); [apply pst_specials|intros o; norm].
      eapply pst_weaken; [apply pst_special_rest| |lia]. destruct o as [[]|]; cbn; lia.
    Qed.
    Lemma at_symbol s : (forall p, In p [L "?_B"; L "?_R0"; L "?__J"] -> starts_with p (tx s) = false) -> at_ 0 2 s
      (o <- demangle_special_intrinsic E K ;; match o with Some h => ret h | None => demangle_declarator E K end)
      (o <- demangle_special_intrinsic E K' ;; match o with Some h => ret h | None => demangle_declarator E K' end).
    Proof.
      intros Hs a s' E1. rewrite special_split in E1.
      enough (Hat : at_ 0 2 s (o <- consume_special special_table ;; special_rest K o) (o <- consume_special special_table ;; special_rest K' o)).
      { destruct (Hat a s' E1) as (p & H1 & H2 & H3). exists p. rewrite special_split. auto. }
      apply (at_bind 2 0); [apply pst_specials|]. intros o s1 Ec. change (need 2 0 0 2) with 2.
      assert (Hr : rest_level o = 0); [|pose proof (pst_special_rest o) as Hp; rewrite Hr in Hp; apply Hp].
      destruct o as [k|]; [|reflexivity]. destruct (consume_special_which _ _ _ _ Ec) as (p & Hin & Ht).
      assert (Hp : starts_with p (tx s) = true).
      { rewrite Ht. unfold starts_with. assert (Hx : strip_prefix p (p ++ tx s1) = Some (tx s1)) by (apply strip_prefix_spec; reflexivity). rewrite Hx. reflexivity. }
      cbn [rest_level]. destruct (at_end_kind k) eqn:Hk; [|reflexivity]. exfalso.
      assert (Hin' : In p [L "?_B"; L "?_R0"; L "?__J"]); [|rewrite (Hs p Hin') in Hp; discriminate].
      revert Hin. unfold special_table. clear - Hk. cbn [In]. intros Hin.
      repeat (destruct Hin as [Hin|Hin]; [injection Hin as <- <-; first [discriminate Hk|cbn [In]; tauto]|]). destruct Hin.
    Qed.
    Lemma starts_one x t : t <> [] -> starts_with [x] (t ++ u) = starts_with [x] t.
    Proof. destruct t as [|y t]; [congruence|]. intros _. unfold starts_with. cbn [app strip_prefix]. destruct (_ =? _)%N; reflexivity. Qed.
    Lemma at_do_parse k s : k <= 2 -> tx s <> [] ->
      (starts_with (L "??@") (tx s) = true -> k = 2) ->
      (starts_with (L ".") (tx s) = true \/ starts_with (L "??_B") (tx s) = true \/ starts_with (L "??_R0") (tx s) = true \/
       starts_with (L "??__J") (tx s) = true -> 1 <= k) ->
      at_ k 1 s (do_parse E K) (do_parse E K').
    Proof.
      intros Hk Hne H5 H1. unfold do_parse.
      enough (Ht : at_ k 1 s (if starts_with (L ".") (tx s) then demangle_typeinfo_name E K
          else if starts_with (L "??@") (tx s) then demangle_md5_name E
          else expect_char (ch "?") (Io UnexpectedEof) ;;;
               o <- demangle_special_intrinsic E K ;; match o with Some h => ret h | None => demangle_declarator E K end)
         (if starts_with (L ".") (tx s ++ u) then demangle_typeinfo_name E K'
          else if starts_with (L "??@") (tx s ++ u) then demangle_md5_name E
          else expect_char (ch "?") (Io UnexpectedEof) ;;;
               o <- demangle_special_intrinsic E K' ;; match o with Some h => ret h | None => demangle_declarator E K' end)) by exact Ht.
      rewrite (starts_one (ch ".")) by assumption. change [ch "."] with (L ".").
      destruct (starts_with (L ".") (tx s)) eqn:Hd.
      { pose proof (H1 (or_introl eq_refl)). refine (pst_weaken 1 1 k 1 _ _ pst_typeinfo _ _ s); lia. }
      destruct (starts_with (L "??@") (tx s)) eqn:Hm.
      { rewrite (starts_more _ _ Hm). rewrite (H5 eq_refl). apply pst_md5. }
      (* a text that is a proper prefix of ??@ fails *)
      intros a s' E1.
      assert (Hsym : at_ k 1 s
         (expect_char (ch "?") (Io UnexpectedEof) ;;; o <- demangle_special_intrinsic E K ;; match o with Some h => ret h | None => demangle_declarator E K end)
         (expect_char (ch "?") (Io UnexpectedEof) ;;; o <- demangle_special_intrinsic E K' ;; match o with Some h => ret h | None => demangle_declarator E K' end)).
      { apply (at_bind 0 1); [apply pst_expect_one|]. intros [] s1 Ex.
        destruct (le_lt_dec 1 k) as [Hk1|Hk0].
        - refine (pst_weaken 1 2 k _ _ _ pst_symbol _ _ s1); [lia|]. cbv. lia.
        - intros b s2 E2. destruct (at_symbol s1) with (a := b) (s' := s2) as (p & G1 & G2 & G3); [|exact E2|].
          + intros p Hp. destruct (starts_with p (tx s1)) eqn:Hs; [|reflexivity]. exfalso.
            assert (Hts : tx s = ch "?" :: tx s1).
            { clear - u Ex. unfold expect_char, bind in Ex. destruct (eat_char (ch "?") s) as [[b s2]| | |] eqn:Ee; try discriminate.
              destruct (eat_char_cases _ _ _ _ Ee) as [(-> & Ht & _)|(-> & -> & _)]; [|discriminate]. injection Ex as <-. exact Ht. }
            assert (Hs' : starts_with (ch "?" :: p) (tx s) = true).
            { rewrite Hts. unfold starts_with in *. cbn [strip_prefix]. rewrite N.eqb_refl. exact Hs. }
            enough (1 <= k) by lia. apply H1. right. cbn [In] in Hp. destruct Hp as [<-|[<-|[<-|[]]]]; [left|right; left|right; right]; exact Hs'.
          + exists p. split; [assumption|]. split; [exact I|]. intros _. apply G3. exact I. }
      destruct (Hsym a s' E1) as (p & G1 & G2 & G3). exists p. split; [assumption|]. split; [assumption|]. intros Hh.
      rewrite starts_short; [apply G3; assumption|assumption|]. intros Hs.
      (* the symbol consumed an at-sign *)
      clear G3. unfold bind at 1 in E1. destruct (expect_char (ch "?") (Io UnexpectedEof) s) as [[[] s1]| | |] eqn:Ex; try discriminate.
      destruct (pst_expect_one _ _ s tt s1 Ex) as (p1 & F1 & _ & _).
      destruct (pst_symbol s1 a s' E1) as (p2 & F2 & F3 & _).
      assert (Hin : In (ch "@") (tx s)) by (rewrite F1, F2; apply in_or_app; right; apply in_or_app; left; exact F3).
      shorts Hs; rewrite Hs in Hin; revert Hin; noat.
    Qed.
    Lemma pst_do_parse : pst 2 1 (do_parse E K) (do_parse E K').
    Proof.
      intros s. destruct (tx s) as [|x t] eqn:Et.
      - intros a s' E1. exfalso. unfold do_parse, bind, text, expect_char in E1. change (ms_str (s_ms s)) with (tx s) in E1. rewrite Et in E1.
        change (starts_with (L ".") []) with false in E1. change (starts_with (L "??@") []) with false in E1.
        cbv beta match delta [bind] in E1.
        destruct (eat_char (ch "?") s) as [[b s1]| | |] eqn:Ee; try discriminate.
        destruct (eat_char_cases _ _ _ _ Ee) as [(-> & Ht & _)|(-> & -> & _)]; [rewrite Et in Ht; discriminate|discriminate].
      - apply at_do_parse; [lia|rewrite Et; discriminate|auto|lia].
    Qed.
    (** Where the end of the text is required, anything after it is an error. *)
    Lemma not_end {A} s e (m : M A) : tx s <> [] -> (t <- text ;; if is_empty t then m else fail e) s = Err e.
    Proof. intros H. unfold bind, text. change (ms_str (s_ms s)) with (tx s). destruct (tx s); [congruence|reflexivity]. Qed.
    Lemma typeinfo_more s a s' : u <> [] -> demangle_typeinfo_name E K s = Ok (a, s') ->
      demangle_typeinfo_name E K' (ap s) = Err InvalidTypeinfoName.
    Proof.
      intros Hu E1. unfold demangle_typeinfo_name in *.
      assert (H0 : pst 0 0 (expect_char (ch ".") InvalidTypeinfoName ;;; k_type K QResult) (expect_char (ch ".") InvalidTypeinfoName ;;; k_type K' QResult)) by pl.
      unfold bind at 1 in E1. destruct (expect_char (ch ".") InvalidTypeinfoName s) as [[[] s1]| | |] eqn:Ex; try discriminate.
      destruct (pst_expect_one _ _ s tt s1 Ex) as (p1 & _ & _ & F1). unfold bind at 1. rewrite (F1 I).
      unfold bind at 1 in E1. destruct (k_type K QResult s1) as [[t s2]| | |] eqn:Ek; try discriminate.
      destruct (HKt QResult s1 t s2 Ek) as (p2 & _ & _ & F2). unfold bind at 1. rewrite (F2 I). apply not_end.
      rewrite tx_ap. intros Hn. apply app_eq_nil in Hn. tauto.
    Qed.
    Lemma rtti_td_more s a s' : u <> [] -> rtti_type_descriptor E K s = Ok (a, s') ->
      rtti_type_descriptor E K' (ap s) = Err InvalidSpecialIntrinsic.
    Proof.
      intros Hu E1. unfold rtti_type_descriptor in *.
      unfold bind at 1 in E1. destruct (k_type K QResult s) as [[t s1]| | |] eqn:Ek; try discriminate.
      destruct (HKt QResult s t s1 Ek) as (p2 & _ & _ & F2). unfold bind at 1. rewrite (F2 I).
      unfold bind at 1 in E1. destruct (expect_str (L "@8") InvalidSpecialIntrinsic s1) as [[[] s2]| | |] eqn:Ex; try discriminate.
      destruct (pst_expect_str 0 (L "@8") InvalidSpecialIntrinsic I s1 tt s2 Ex) as (p1 & _ & _ & F1). unfold bind at 1. rewrite (F1 I). apply not_end.
      rewrite tx_ap. intros Hn. apply app_eq_nil in Hn. tauto.
    Qed.
    Lemma consume_special_none t s s1 : consume_special t s = Ok (None, s1) -> forall p k r, In (p, k) t -> tx s = p ++ r -> False.
    Proof.
      induction t as [|[q j] t IH]; cbn [consume_special]; [intros _ p k r []|]. unfold bind.
      destruct (eat_str q s) as [[b s2]| | |] eqn:Ee; try discriminate. intros Ec p k r [Hin|Hin] Ht.
      - injection Hin as -> ->. unfold eat_str, bind, lift, try_consume_str in Ee. change (ms_str (s_ms s)) with (tx s) in Ee.
        assert (Hs : strip_prefix p (tx s) = Some r) by (apply strip_prefix_spec; assumption). rewrite Hs in Ee.
        destruct (ms_drop (s_ms s) r (length p)) as [m'| | |]; try discriminate. cbn in Ee. injection Ee as <- <-. discriminate.
      - destruct (eat_str_cases _ _ _ _ Ee) as [(-> & _ & _)|(-> & -> & _)]; [discriminate|]. eapply IH; eassumption.
    Qed.
    Lemma consume_r0 s : (exists r, tx s = L "?_R0" ++ r) -> forall o s1, consume_special special_table s = Ok (o, s1) ->
      o = Some SRttiTypeDescriptor /\ consume_special special_table (ap s) = Ok (o, ap s1).
    Proof.
      intros (r & Hr) o s1 Ec.
      assert (Ho : o = Some SRttiTypeDescriptor).
      { destruct o as [k|].
        - destruct (consume_special_which _ _ _ _ Ec) as (p & Hp & Ht). rewrite Hr in Ht. clear - Hp Ht.
          unfold special_table in Hp. cbn [In] in Hp.
          repeat (destruct Hp as [Hp|Hp]; [injection Hp as <- <-; first [reflexivity|vm_compute in Ht; discriminate Ht]|]). destruct Hp.
        - exfalso. apply (consume_special_none special_table s s1 Ec (L "?_R0") SRttiTypeDescriptor r); [|exact Hr].
          unfold special_table. cbn [In]. tauto. }
      split; [assumption|]. subst o.
      enough (H : forall t, (forall q, In q (map fst t) -> q = L "?_R0" \/ ~ short q (tx s)) -> consume_special t s = Ok (Some SRttiTypeDescriptor, s1) ->
        consume_special t (ap s) = Ok (Some SRttiTypeDescriptor, ap s1)).
      { apply H; [|exact Ec]. rewrite Hr. intros q Hq. unfold special_table in Hq. cbn [map fst In] in Hq.
        repeat (destruct Hq as [<-|Hq]; [try (left; reflexivity); right; intros (y & w & Hw); vm_compute in Hw; discriminate|]). destruct Hq. }
      clear Ec. induction t as [|[q j] t IH]; intros Hs Ec; [discriminate|]. cbn [consume_special] in *. unfold bind in *.
      destruct (eat_str q s) as [[b s2]| | |] eqn:Ee; try discriminate.
      destruct (eat_str_cases _ _ _ _ Ee) as [(-> & Ht & Ha)|(-> & -> & Ha)].
      - rewrite Ha. injection Ec as -> <-. reflexivity.
      - assert (Hns : ~ short q (tx s)).
        { destruct (Hs q (or_introl eq_refl)) as [->|Hns]; [|assumption]. rewrite Hr. intros (y & w & Hw).
          apply (f_equal (@length N)) in Hw. rewrite !app_length in Hw. cbn in Hw. lia. }
        rewrite (Ha Hns). apply IH; [|exact Ec]. intros q' Hq'. apply Hs. right. assumption.
    Qed.
  End Parser.

  (** ** Tying the knot: a larger budget and a longer text. *)
  Section Knot.
    Variable E : env.
    Definition stable_knot (K K' : knot) : Prop :=
      pst 2 1 (k_parse K) (k_parse K') /\ (forall m, pst 0 1 (k_type K m) (k_type K' m)) /\
      (forall b, pst 0 2 (k_tinst K b) (k_tinst K' b)) /\
      (forall s a s', tx s = L "$" \/ tx s = L "$$" -> k_type K QDrop s = Ok (a, s') -> False).
    Lemma knot_stable n : forall n', n <= n' -> stable_knot (knot_of E n) (knot_of E n').
    Proof.
      induction n as [|n IH]; intros n' Hn.
      - repeat split; intros; try apply pst_nofuel. discriminate.
      - destruct n' as [|n']; [lia|]. destruct (IH n') as (H1 & H2 & H3 & H4); [lia|]. cbn [knot_of k_parse k_type k_tinst].
        split; [|split; [|split]]; cbn [k_parse k_type k_tinst].
        + apply pst_do_parse; assumption.
        + intros m. apply pst_type; assumption.
        + intros b. apply pst_tinst; assumption.
        + apply type_dollar.
    Qed.
    (** A whole symbol. *)
    Lemma parse_stable k n n' s h t : n <= n' -> k <= 2 -> s <> [] ->
      (starts_with (L "??@") s = true -> k = 2) ->
      (starts_with (L ".") s = true \/ starts_with (L "??_B") s = true \/ starts_with (L "??_R0") s = true \/
       starts_with (L "??__J") s = true -> 1 <= k) ->
      parse_with E n s = Ok (h, t) ->
      exists p, s = p ++ tx t /\ (has k (tx t) -> parse_with E n' (s ++ u) = Ok (h, ap t)).
    Proof.
      intros Hn Hk Hs H2 H1 Hp. destruct n as [|n]; [discriminate|]. destruct n' as [|n']; [lia|].
      destruct (knot_stable n n') as (K1 & K2 & K3 & K4); [lia|]. unfold parse_with in *. cbn [knot_of k_parse] in *.
      destruct (at_do_parse E _ _ K1 K2 K3 k (init_st s) Hk Hs H2 H1 h t Hp) as (p & G1 & _ & G3).
      exists p. split; [exact G1|]. intros Hh. rewrite <- (G3 Hh). f_equal. unfold ap, init_st, ms_new, set_ms, tx. cbn. rewrite app_length. reflexivity.
    Qed.
    Lemma typeinfo_longer n n' s h t : n <= n' -> u <> [] -> (exists r, s = L "." ++ r) ->
      parse_with E n s = Ok (h, t) -> parse_with E n' (s ++ u) = Err InvalidTypeinfoName.
    Proof.
      intros Hn Hu (r & ->) Hp. destruct n as [|n]; [discriminate|]. destruct n' as [|n']; [lia|].
      destruct (knot_stable n n') as (K1 & K2 & K3 & K4); [lia|]. unfold parse_with in *. cbn [knot_of k_parse] in *.
      pose proof (typeinfo_more E _ _ K2 (init_st (L "." ++ r)) h t Hu Hp) as H. rewrite <- H.
      replace (init_st ((L "." ++ r) ++ u)) with (ap (init_st (L "." ++ r)))
        by (unfold ap, init_st, ms_new, set_ms, tx; cbn; rewrite app_length; reflexivity).
      unfold do_parse, bind at 1, text. change (ms_str (s_ms (ap (init_st (L "." ++ r))))) with (L "." ++ r ++ u).
      change (starts_with (L ".") (L "." ++ r ++ u)) with true. reflexivity.
    Qed.
    Lemma descriptor_longer n n' s h t : n <= n' -> u <> [] -> (exists r, s = L "??_R0" ++ r) ->
      parse_with E n s = Ok (h, t) -> parse_with E n' (s ++ u) = Err InvalidSpecialIntrinsic.
    Proof.
      intros Hn Hu (r & ->) Hp. destruct n as [|n]; [discriminate|]. destruct n' as [|n']; [lia|].
      destruct (knot_stable n n') as (K1 & K2 & K3 & K4); [lia|]. unfold parse_with in *. cbn [knot_of k_parse] in *.
      unfold do_parse in *. unfold bind at 1, text in Hp. change (ms_str (s_ms (init_st (L "??_R0" ++ r)))) with (L "??_R0" ++ r) in Hp.
      change (starts_with (L ".") (L "??_R0" ++ r)) with false in Hp. change (starts_with (L "??@") (L "??_R0" ++ r)) with false in Hp.
      cbv match in Hp.
      unfold bind at 1, text. change (ms_str (s_ms (init_st ((L "??_R0" ++ r) ++ u)))) with (L "??_R0" ++ r ++ u).
      change (starts_with (L ".") (L "??_R0" ++ r ++ u)) with false. change (starts_with (L "??@") (L "??_R0" ++ r ++ u)) with false. cbv match.
      replace (init_st ((L "??_R0" ++ r) ++ u)) with (ap (init_st (L "??_R0" ++ r)))
        by (unfold ap, init_st, ms_new, set_ms, tx; cbn; rewrite app_length; reflexivity).
      unfold bind at 1 in Hp. destruct (expect_char (ch "?") (Io UnexpectedEof) (init_st (L "??_R0" ++ r))) as [[[] s1]| | |] eqn:Ex; try discriminate.
      destruct (pst_expect_one _ _ _ tt s1 Ex) as (p1 & T1 & _ & F1). unfold bind at 1. rewrite (F1 I).
      assert (Hs1 : tx s1 = L "?_R0" ++ r) by (vm_compute in Ex; injection Ex as <-; reflexivity).
      rewrite special_split in Hp. rewrite special_split. unfold bind in Hp |- *.
      destruct (consume_special special_table s1) as [[o s2]| | |] eqn:Ec; try discriminate.
      destruct (consume_r0 s1 (ex_intro _ r Hs1) o s2 Ec) as [-> Ec']. rewrite Ec'. cbn [special_rest] in *.
      eapply rtti_td_more; eassumption.
    Qed.
  End Knot.
End Prefix.
