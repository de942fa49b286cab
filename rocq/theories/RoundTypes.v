(** The round trip: types and template arguments.  Proof infrastructure for [Trip]. *)
From Verif Require Import Parser Utf8 Show Den Emit Grammar Lex Step Number Pend ReadAt Round RoundNames.

Ltac len ::= repeat (progress (rewrite ?app_length in *; cbn [length] in * )); lens; try lia.

(** [demangle_type] without the qualifiers. *)
Definition unq (E : env) (K : knot) : M handle :=
  s <- text ;;
  if is_tag_type s then demangle_class_type E K
  else if is_pointer_type s then
    match is_member_pointer s with
    | Some true => demangle_member_pointer_type E K
    | Some false => demangle_pointer_type E K
    | None => fail InvalidType
    end
  else if is_array_type s then demangle_array_type E K
  else if is_function_type s then
    a8 <- eat_str (L "$$A8@@") ;;
    if a8 then demangle_function_type E K true
    else a6 <- eat_str (L "$$A6") ;;
         if a6 then demangle_function_type E K false else fail InvalidType
  else if is_custom_type s then demangle_custom_type E K
  else demangle_primitive_type E.
Definition type_quals (m : qmm) : M N :=
  match m with
  | QMangle => '(q, _) <- demangle_qualifiers ;; ret q
  | QResult => b <- eat_char (ch "?") ;;
               if b then '(q, _) <- demangle_qualifiers ;; ret q else ret Q_None
  | QDrop => ret Q_None
  end.

Lemma params_fps f tn t sg n : (fun s => Ok (tt, if length (s_fps s) <? 10 then set_fps (s_fps s ++ [tn]) s else s)) (at_ t sg f n) =
  Ok (tt, at_ t sg (if length f <? 10 then f ++ [tn] else f) n) :> res (unit * st).
Proof. cbv beta. change (s_fps (at_ t sg f n)) with f. destruct (length f <? 10); reflexivity. Qed.

Lemma first_not (a : ascii) t r : 1 <= length t -> first_is_not a t -> starts (ch a) (t ++ r) = false.
Proof.
  intros Hl Hf. destruct t as [|c t]; [cbn in Hl; lia|]. unfold starts. cbn [app first_char].
  destruct (N.eqb_spec c (ch a)) as [->|]; [exfalso; exact (Hf t eq_refl)|reflexivity].
Qed.

Section Types.
  Variable E : env.
  Variable B : nat.
  Notation DT w := (dty E (cnt w) w).
  Notation DS w := (dstr E (cnt w) w).
  Notation DF w := (dfn E (cnt w) w).
  Notation okerr := (okerr E B).
  Notation ctx := (ctx E).
  Notation K := (knot_of E).
  Notation rd := (rd E B).
  Notation P_tname := (P_tname E B).
  Notation P_qname := (P_qname E B).
  Notation P_targ := (P_targ E B).
  Notation P_symbol := (P_symbol E B).
  Notation pend := (pend E).
  Notation pend1 := (pend1 E).

  Lemma demangle_type_eq K m s q s' : type_quals m s = Ok (q, s') -> tx s' <> [] ->
    demangle_type E K m s = (ty <- unq E K ;; modify KType ty (append_quals q) ;;; ret ty) s'.
  Proof.
    intros H Ht. unfold demangle_type. fold (type_quals m). rewrite (bind_eq _ _ _ _ _ H). unfold unq.
    assert (Hx : forall A (k : str -> M A), bind text k s' = k (tx s') s') by reflexivity.
    rewrite Hx. destruct (tx s') as [|c r] eqn:Htx; [congruence|]. cbn [is_empty].
    rewrite <- Htx. reflexivity.
  Qed.

  Definition P_body (G : tab) (t : str) (y : ty) (G' : tab) : Prop :=
    (exists p r, t = p ++ r /\ In p heads) /\ rd 0 t G G' (fun fu => unq E (K (pred fu))) (fun n0 w' sg' h => pend n0 w' sg' h y).
  Definition P_mtype (m : bool) (G : tab) (t : str) (y : ty) (G' : tab) : Prop :=
    (exists c v r, t = cv_code m c v :: r) /\ rd 0 t G G' (fun fu => k_type (K fu) QMangle) (fun n0 w' sg' h => pend n0 w' sg' h y).
  Definition P_rtype (G : tab) (t : str) (y : ty) (G' : tab) : Prop :=
    (1 <= length t /\ forall r, starts (ch "@") (t ++ r) = false) /\
    rd 0 t G G' (fun fu => k_type (K fu) QResult) (fun n0 w' sg' h => pend n0 w' sg' h y).
  Definition rett_m (K : knot) : M (option handle) :=
    b <- eat_char (ch "@") ;; if b : bool then ret None else t <- k_type K QResult ;; ret (Some t).
  Definition P_rett (G : tab) (t : str) (r : option ty) (G' : tab) : Prop :=
    1 <= length t /\ rd 0 t G G' (fun fu => rett_m (K fu)) (fun _ w' _ o => opt_rel (DT w') o r).
  Definition P_param (G : tab) (t : str) (y : ty) (G' : tab) : Prop :=
    (1 <= length t /\ forall r, first_is (one_of (L "@Z")) (t ++ r) = false) /\
    forall fu loop acc rest w sg f n, length t <= fu -> ctx w sg f n G -> length sg + 2 * length t <= B ->
    forall Q : list handle -> st -> Prop,
    (forall h w' sg' f' n', ext w w' -> ext sg sg' -> length sg' <= length sg + 2 * length t -> ctx w' sg' f' n' G' -> DT w' h y ->
       wp okerr (params_loop (K fu) loop (h :: acc)) Q (at_ rest sg' f' n')) ->
    wp okerr (params_loop (K fu) (S loop) acc) Q (at_ (t ++ rest) sg f n).
  Definition P_params (G : tab) (t : str) (ys : list ty) (G' : tab) : Prop :=
    forall fu loop acc rest w sg f n, length t < loop -> first_is (one_of (L "@Z")) rest = true ->
      length t <= fu -> ctx w sg f n G -> length sg + 2 * length t <= B ->
      wp okerr (params_loop (K fu) loop acc)
        (fin E w sg (length sg + 2 * length t) rest G' (fun w' _ l => exists hs, l = rev acc ++ hs /\ Forall2 (DT w') hs ys)) (at_ (t ++ rest) sg f n).
  Definition P_plist (G : tab) (t : str) (ps : option (list ty)) (v : bool) (G' : tab) : Prop :=
    1 <= length t /\ rd 0 t G G' (fun fu => demangle_function_parameter_list E (K fu)) (fun _ w' _ o =>
      snd o = v /\ opt_rel (fun h l => DS w' KNodes h (join (L ", ") (map (show E) l))) (fst o) ps).
  Definition P_fn (this : bool) (G : tab) (t : str) (y : ty) (G' : tab) : Prop :=
    rd 0 t G G' (fun fu => demangle_function_type E (K fu) this) (fun n0 w' sg' h => pend1 n0 w' sg' h y /\ exists q cc rq r ps v ne, y = TFun q cc rq r ps v ne).

  Lemma body_nonempty t r : (exists p r, t = p ++ r /\ In p heads) -> t ++ r <> [].
  Proof.
    intros (p & r0 & -> & Hp). rewrite <- app_assoc. revert Hp.
    apply (heads_all (fun p => p ++ r0 ++ r <> [])). repeat (constructor; [discriminate|]). constructor.
  Qed.
  Lemma body_len t : (exists p r, t = p ++ r /\ In p heads) -> 1 <= length t.
  Proof. intros H. apply (body_nonempty t []) in H. rewrite app_nil_r in H. destruct t; [congruence|cbn; lia]. Qed.
  (** Adding qualifiers to a pending type. *)
  Lemma append_at q h y w0 sg0 M G rest w sg f n : ctx w sg f n G -> ext w0 w -> ext sg0 sg -> length sg <= M ->
    pend (length sg0) w sg h y ->
    wp okerr (modify KType h (append_quals q) ;;; ret h) (fin E w0 sg0 M rest G (fun w' sg' h => pend (length sg0) w' sg' h (add_quals q y))) (at_ rest sg f n).
  Proof.
    intros Hc Hw Hs HM Hp. destruct (pend_hid _ _ _ _ _ _ Hp) as [H1 H2]. destruct (pend_node _ _ _ _ _ _ Hp) as (nd & H3 & H4).
    apply wp_bind. eapply (fresh_modify E B _ _ _ _ _ _ _ _ _ nd (length sg0) sg0); [exact Hc|split; [exact H1|split; [exact H2|exact H3]]|exact H4|exact Hs|lia|].
    intros C F S _ L. apply wp_ret. eapply fin_intro; [exact Hw|exact S|lia|exact C|]. apply pend_upd; assumption.
  Qed.
  Lemma type_at m q pre G t y G' : (forall r sg f n, type_quals m (at_ (pre ++ t ++ r) sg f n) = Ok (q, at_ (t ++ r) sg f n)) ->
    P_body G t y G' -> rd 0 (pre ++ t) G G' (fun fu => k_type (K fu) m) (fun n0 w' sg' h => pend n0 w' sg' h (add_quals q y)).
  Proof.
    intros Hq [Hh H] fu rest w sg f n Hfu Hc HB. pose proof (body_len t Hh) as Hl. destruct fu as [|fu]; [len|]. cbn [knot_of k_type].
    rewrite <- app_assoc. unfold wp. rewrite (demangle_type_eq _ _ _ _ _ (Hq rest sg f n)) by (apply body_nonempty; exact Hh).
    match goal with |- match ?m ?s with _ => _ end => change (wp okerr m (fin E w sg (length sg + 2 * length (pre ++ t) - 0) rest G' (fun w' sg' h => pend (length sg) w' sg' h (add_quals q y))) s) end.
    apply wp_bind. eapply wp_mono; [eapply (H (S fu)); [len|exact Hc|len]|].
    intros h s (w1 & sg1 & f1 & n1 & -> & X1 & S1 & L1 & C1 & R1). eapply append_at; [exact C1|exact X1|exact S1|len|exact R1].
  Qed.
  Lemma drop_at G t y G' : P_body G t y G' -> rd 0 t G G' (fun fu => k_type (K fu) QDrop) (fun n0 w' sg' h => pend n0 w' sg' h y).
  Proof.
    intros H fu rest w sg f n Hfu Hc HB. pose proof (type_at QDrop Q_None [] G t y G') as Ht. cbn [app] in Ht. specialize (Ht (fun r sg f n => eq_refl) H).
    eapply wp_mono; [eapply Ht; eassumption|]. intros h s Hf. eapply fin_mono; [exact Hf|apply ext_refl|apply ext_refl|lia|].
    intros w' sg' _ _ _ Hp. rewrite add_none in Hp. exact Hp.
  Qed.
  Lemma c_mt_intro m c v G t y G' : P_body G t y G' -> P_mtype m G (cv_code m c v :: t) (add_quals (cvq c v) y) G'.
  Proof.
    intros H. split; [eexists _, _, _; reflexivity|]. apply (type_at QMangle (cvq c v) [cv_code m c v]); [|exact H].
    intros r sg f n. cbn [type_quals app]. rewrite (bind_eq _ _ _ _ _ (quals_at _ _ _ _ _ _ _)). reflexivity.
  Qed.
  Lemma heads_at t : (exists p r, t = p ++ r /\ In p heads) -> forall r, starts (ch "@") (t ++ r) = false.
  Proof.
    intros (p & r0 & -> & Hp) r. rewrite <- app_assoc. revert Hp. apply (heads_all (fun p => starts (ch "@") (p ++ r0 ++ r) = false)).
    repeat (constructor; [reflexivity|]). constructor.
  Qed.
  Lemma c_rt_plain G t y G' : P_body G t y G' -> first_is_not "?"%char t -> P_rtype G t y G'.
  Proof.
    intros H Hf. pose proof H as [Hh _]. split; [split; [apply body_len; exact Hh|apply heads_at; exact Hh]|].
    intros fu rest w sg f n Hfu Hc HB.
    assert (Ht : rd 0 ([] ++ t) G G' (fun fu => k_type (K fu) QResult) (fun n0 w' sg' h => pend n0 w' sg' h (add_quals Q_None y))).
    { apply type_at; [|exact H]. intros r sg0 f0 n0. cbn [type_quals app].
      rewrite (bind_eq _ _ _ _ _ (eat_no (ch "?") (t ++ r) _ _ _ (first_not "?"%char t r ltac:(apply body_len; exact Hh) Hf))). reflexivity. }
    cbn [app] in Ht. eapply wp_mono; [eapply Ht; eassumption|]. intros h s Hff. eapply fin_mono; [exact Hff|apply ext_refl|apply ext_refl|lia|].
    intros w' sg' _ _ _ Hp. rewrite add_none in Hp. exact Hp.
  Qed.
  Lemma c_rt_quals m c v G t y G' : P_body G t y G' -> P_rtype G (L "?" ++ [cv_code m c v] ++ t) (add_quals (cvq c v) y) G'.
  Proof.
    intros H. split; [split; [len|reflexivity]|]. rewrite app_assoc. apply type_at; [|exact H]. intros r sg f n. cbn [type_quals].
    change ((L "?" ++ [cv_code m c v]) ++ t ++ r) with (ch "?" :: cv_code m c v :: t ++ r).
    rewrite (bind_eq _ _ _ _ _ (eat_yes _ _ _ _ _)). rewrite (bind_eq _ _ _ _ _ (quals_at _ _ _ _ _ _ _)). reflexivity.
  Qed.
  (** Settled types. *)
  Lemma fin_settle_type w sg M rest G y : length w = length sg -> forall h s,
    fin E w sg M rest G (fun w' sg' h => pend (length sg) w' sg' h y) h s -> fin E w sg M rest G (fun w' _ h => DT w' h y) h s.
  Proof.
    intros Hl h s (w' & sg' & f' & n' & -> & H1 & H2 & H3 & H4 & H5).
    destruct (settle E (length sg) w w' sg' h y ltac:(lia) H1 ltac:(apply H4) H5) as (w2 & X2 & U2 & C2 & D2).
    eapply fin_intro; [exact X2|exact H2|exact H3|eapply ctx_mono; eauto|exact D2].
  Qed.
  Lemma drop_known G t y G' : P_body G t y G' -> rd 0 t G G' (fun fu => k_type (K fu) QDrop) (fun _ w' _ h => DT w' h y).
  Proof.
    intros H fu rest w sg f n Hfu Hc HB. eapply wp_mono; [eapply (drop_at _ _ _ _ H); eassumption|]. apply fin_settle_type. eapply ctx_len; exact Hc.
  Qed.
  Lemma c_re_none G : P_rett G (L "@") None G.
  Proof.
    split; [len|]. intros fu rest w sg f n Hfu Hc HB. unfold rett_m. eapply wp_step; [apply (eat_yes (ch "@"))|]. apply wp_ret.
    eapply fin_intro; [apply ext_refl|apply ext_refl|len|exact Hc|exact I].
  Qed.
  Lemma c_re_some G t y G' : P_rtype G t y G' -> P_rett G t (Some y) G'.
  Proof.
    intros [[Hl Hh] H]. split; [exact Hl|]. intros fu rest w sg f n Hfu Hc HB. unfold rett_m. eapply wp_step; [apply eat_no; apply Hh|]. apply wp_bind.
    eapply wp_mono; [eapply H; eassumption|]. intros h s Hf. apply (fin_settle_type _ _ _ _ _ _ (ctx_len _ _ _ _ _ _ Hc)) in Hf.
    destruct Hf as (w' & sg' & f' & n' & -> & H1 & H2 & H3 & H4 & H5). apply wp_ret. eapply fin_intro; eauto.
  Qed.

  (** ** Parameters *)
  Lemma c_pa_ref G i y : i < 10 -> nth_error (snd G) i = Some y -> P_param G [digit_char i] y G.
  Proof.
    intros Hi Hy. split; [split; [len|intros r; unfold first_is, one_of, digit_char; cbn [first_char app existsb]]|].
    { change (L "@Z") with [ch "@"; ch "Z"]. cbn [existsb]. change (ch "0") with 48%N. change (ch "@") with 64%N. change (ch "Z") with 90%N.
      rewrite !(proj2 (N.eqb_neq _ _)) by lia. reflexivity. }
    intros fu loop acc rest w sg f n Hfu Hc HB Q HQ. cbn [params_loop]. eapply wp_step; [apply text_at|].
    assert (H1 : first_is (one_of (L "@Z")) ([digit_char i] ++ rest) = false).
    { unfold first_is, one_of, digit_char. cbn [first_char app existsb]. change (L "@Z") with [ch "@"; ch "Z"]. cbn [existsb].
      change (ch "0") with 48%N. change (ch "@") with 64%N. change (ch "Z") with 90%N. rewrite !(proj2 (N.eqb_neq _ _)) by lia. reflexivity. }
    rewrite H1. cbn [app is_empty]. eapply wp_step; [apply eatif_yes; apply digit_is; exact Hi|]. cbv iota. eapply wp_step; [apply get_at|].
    change (s_fps _) with f. rewrite digit_val. pose proof Hc as (_ & Hf & _). destruct (forall2_nth _ _ _ _ _ Hf Hy) as (h & Hh & Hd).
    rewrite Hh. eapply wp_step; [reflexivity|]. apply (HQ h w sg); try apply ext_refl; auto. len.
  Qed.
  Lemma heads_param t : (exists p r, t = p ++ r /\ In p heads) -> forall r,
    first_is (one_of (L "@Z")) (t ++ r) = false /\ is_empty (t ++ r) = false /\ first_is is_digit (t ++ r) = false.
  Proof.
    intros (p & r0 & -> & Hp) r. rewrite <- app_assoc. revert Hp. apply (heads_all (fun p => first_is (one_of (L "@Z")) (p ++ r0 ++ r) = false /\
      is_empty (p ++ r0 ++ r) = false /\ first_is is_digit (p ++ r0 ++ r) = false)).
    repeat (constructor; [repeat split|]). constructor.
  Qed.
  Lemma c_pa_body G t y G' : P_body G t y G' -> P_param G t y (if length t =? 1 then G' else remember_param y G').
  Proof.
    intros H. pose proof H as [Hh _]. pose proof (body_len t Hh) as Hl. split; [split; [exact Hl|apply heads_param; exact Hh]|].
    intros fu loop acc rest w sg f n Hfu Hc HB Q HQ. destruct (heads_param t Hh rest) as (H1 & H2 & H3). cbn [params_loop].
    eapply wp_step; [apply text_at|]. rewrite H1, H2. eapply wp_step; [apply eatif_no; exact H3|]. cbv iota.
    eapply wp_step; [apply len_at|]. apply wp_bind. eapply wp_mono; [eapply (drop_known _ _ _ _ H); eassumption|].
    intros h s (w1 & sg1 & f1 & n1 & -> & X1 & S1 & L1 & C1 & R1). eapply wp_step; [apply len_at|].
    rewrite app_length. replace (length t + length rest <? length rest) with false by (symmetry; apply Nat.ltb_ge; lia).
    replace (length t + length rest - length rest) with (length t) by lia.
    destruct (length t) as [|[|m]] eqn:Ht; [lia| |].
    - cbn [Nat.eqb] in HQ. eapply wp_step; [reflexivity|]. apply (HQ h w1 sg1); auto. lia.
    - cbn [Nat.eqb] in HQ. eapply wp_step; [apply params_fps|]. apply (HQ h w1 sg1); auto; [lia|].
      destruct C1 as (A1 & A2 & A3). unfold remember_param. rewrite (forall2_len _ _ _ A2).
      destruct (length (snd G') <? 10); [|split; [exact A1|split; [exact A2|exact A3]]].
      split; [exact A1|]. split; [|exact A3]. cbn [snd]. apply Forall2_app; [exact A2|]. constructor; [exact R1|constructor].
  Qed.
  Lemma c_pa_short G t y G' : P_body G t y G' -> length t = 1 -> P_param G t y G'.
  Proof. intros H Hl. apply c_pa_body in H. rewrite Hl in H. exact H. Qed.
  Lemma c_pa_long G t y G' : P_body G t y G' -> 1 < length t -> P_param G t y (remember_param y G').
  Proof. intros H Hl. apply c_pa_body in H. destruct (Nat.eqb_spec (length t) 1); [lia|]. exact H. Qed.
  Lemma c_ps_nil G : P_params G [] [] G.
  Proof.
    intros fu loop acc rest w sg f n Hlo Hr Hfu Hc HB. destruct loop as [|loop]; [len|]. cbn [params_loop app]. eapply wp_step; [apply text_at|].
    rewrite Hr. apply wp_ret. eapply fin_intro; [apply ext_refl|apply ext_refl|len|exact Hc|]. exists []. split; [rewrite app_nil_r; reflexivity|constructor].
  Qed.
  Lemma c_ps_cons G t y G1 t' ys G2 : P_param G t y G1 -> P_params G1 t' ys G2 -> P_params G (t ++ t') (y :: ys) G2.
  Proof.
    intros [[Hl _] H1] H2 fu loop acc rest w sg f n Hlo Hr Hfu Hc HB. destruct loop as [|loop]; [len|]. rewrite <- app_assoc.
    eapply H1; [len|exact Hc|len|]. intros h w1 sg1 f1 n1 X1 S1 L1 C1 R1.
    eapply wp_mono; [eapply H2; [len|exact Hr|len|exact C1|len]|]. intros l s Hf.
    eapply fin_mono; [exact Hf|exact X1|exact S1|len|]. intros w' sg' Xw _ _ (hs & -> & Hhs). exists (h :: hs).
    split; [cbn [rev]; rewrite <- app_assoc; reflexivity|]. constructor; [|exact Hhs]. eapply DT_sub; [|exact R1]. apply ext_sub. exact Xw.
  Qed.
  Lemma c_pl_void G : P_plist G (L "X") None false G.
  Proof.
    split; [len|]. intros fu rest w sg f n Hfu Hc HB. unfold demangle_function_parameter_list. eapply wp_step; [apply (eat_yes (ch "X"))|].
    apply wp_ret. eapply fin_intro; [apply ext_refl|apply ext_refl|len|exact Hc|]. split; [reflexivity|exact I].
  Qed.
  Lemma show_params w hs ys : Forall2 (DT w) hs ys -> dsh E w (NNodes hs) (join (L ", ") (map (show E) ys)).
  Proof.
    intros H. exists (map (show E) ys). split; [|reflexivity]. induction H; cbn; constructor; auto. apply DT_show. exact H.
  Qed.
  Lemma plist_at v G t ys G' : P_params G t ys G' -> first_is_not "X"%char t ->
    P_plist G (t ++ (if v : bool then L "Z" else L "@")) (Some ys) v G'.
  Proof.
    intros H Hf. split; [destruct v; len|]. intros fu rest w sg f n Hfu Hc HB. unfold demangle_function_parameter_list. rewrite <- app_assoc.
    set (term := (if v then L "Z" else L "@") ++ rest). assert (Ht : first_is (one_of (L "@Z")) term = true) by (destruct v; reflexivity).
    eapply wp_step; [apply eat_no|].
    { destruct t as [|c t0]; [unfold term; destruct v; reflexivity|]. apply first_not; [cbn; lia|exact Hf]. }
    eapply wp_step; [apply text_at|]. assert (Hlv : length (if v then L "Z" else L "@") = 1) by (destruct v; reflexivity).
    rewrite app_length, Hlv in Hfu, HB. apply wp_bind.
    eapply wp_mono; [eapply H; [rewrite ?app_length; lia|exact Ht|lia|exact Hc|lia]|].
    intros l s (w1 & sg1 & f1 & n1 & -> & X1 & S1 & L1 & C1 & hs & -> & R1). cbn [rev app].
    apply wp_bind. eapply wp_new_known; [exact C1|lia|]. intros C2 M2.
    assert (Hd : forall (R : option handle * bool), snd R = v -> fst R = Some (length sg1) ->
      fin E w sg (length sg + 2 * length (t ++ (if v then L "Z" else L "@")) - 0) rest G' (fun w' _ o => snd o = v /\ opt_rel (fun h l => DS w' KNodes h (join (L ", ") (map (show E) l))) (fst o) (Some ys))
        R (at_ rest (sg1 ++ [NNodes hs]) f1 n1)).
    { intros R HR1 HR2. eapply fin_intro; [eapply ext_trans; [exact X1|apply ext_app]|eapply ext_trans; [exact S1|apply ext_app]|len|exact C2|].
      split; [exact HR1|]. rewrite HR2. cbn [opt_rel]. eapply more_DS; [exact M2|reflexivity|]. apply show_params. exact R1. }
    unfold term. destruct v.
    - eapply wp_step; [apply eat_no; reflexivity|]. eapply wp_step; [apply (eat_yes (ch "Z"))|]. apply wp_ret. apply Hd; reflexivity.
    - eapply wp_step; [apply (eat_yes (ch "@"))|]. apply wp_ret. apply Hd; reflexivity.
  Qed.
  Lemma c_pl_fixed G t ys G' : P_params G t ys G' -> first_is_not "X"%char t -> P_plist G (t ++ L "@") (Some ys) false G'.
  Proof. apply (plist_at false). Qed.
  Lemma c_pl_variadic G t ys G' : P_params G t ys G' -> first_is_not "X"%char t -> P_plist G (t ++ L "Z") (Some ys) true G'.
  Proof. apply (plist_at true). Qed.

  (** ** Function types *)
  Definition this_m (this : bool) : M (N * option ref_qual) :=
    if this then
      q1 <- pointer_ext_qualifiers ;;
      rq <- demangle_function_ref_qualifier ;;
      '(q2, _) <- demangle_qualifiers ;;
      ret (N.lor q1 q2, rq)
    else ret (Q_None, None).
  Lemma this_at this t q rq r sg f n : this_code this t q rq -> this_m this (at_ (t ++ r) sg f n) = Ok ((q, rq), at_ r sg f n).
  Proof.
    intros H. destruct H as [|p r' u rt rq m c v Hr]; [reflexivity|]. unfold this_m. rewrite <- !app_assoc.
    assert (H1 : no_ext (rt ++ [cv_code m c v] ++ r) = true) by (destruct Hr; destruct m, c, v; reflexivity).
    assert (H2 : first_is (one_of (L "GH")) ([cv_code m c v] ++ r) = false) by (destruct m, c, v; reflexivity).
    rewrite (bind_eq _ _ _ _ _ (ext_at _ _ _ p r' u _ H1)). rewrite (bind_eq _ _ _ _ _ (ref_at _ _ _ rt rq _ Hr H2)).
    cbn [app]. rewrite (bind_eq _ _ _ _ _ (quals_at _ _ _ _ _ _ _)). reflexivity.
  Qed.
  Lemma wp_assoc {A C D} (m : M A) (k : A -> M C) (g : C -> M D) Q s : wp okerr (bind (bind m k) g) Q s -> wp okerr (bind m (fun x => bind (k x) g)) Q s.
  Proof. unfold wp, bind. destruct (m s) as [[a s']| | |]; auto. Qed.
  Lemma c_fn_intro this G tt q rq l cc rt r G1 pt ps v G2 ne :
      this_code this tt q rq -> cc_code l cc -> P_rett G rt r G1 -> P_plist G1 pt ps v G2 ->
      P_fn this G (tt ++ [l] ++ rt ++ pt ++ throw_code ne) (TFun q cc rq r ps v ne) G2.
  Proof.
    intros Ht Hcc [Hlr Hr] [Hlp Hp] fu rest w sg f n Hfu Hc HB. unfold demangle_function_type. fold (this_m this). rewrite <- !app_assoc.
    eapply wp_step; [apply this_at; exact Ht|]. cbv iota beta. cbn [app]. eapply wp_step; [apply cc_at; exact Hcc|].
    assert (Hne : 1 <= length (throw_code ne)) by (destruct ne; cbn; lia).
    apply (wp_assoc (eat_char (ch "@")) (fun b : bool => if b then ret None else t <- k_type (K fu) QResult ;; ret (Some t))).
    fold (rett_m (K fu)). apply wp_bind. eapply wp_mono; [eapply Hr; [len|exact Hc|len]|].
    intros o s (w1 & sg1 & f1 & n1 & -> & X1 & S1 & L1 & C1 & R1). pose proof (ext_len _ _ S1).
    apply wp_bind. eapply wp_mono; [eapply Hp; [len|exact C1|len]|].
    intros [params va] s (w2 & sg2 & f2 & n2 & -> & X2 & S2 & L2 & C2 & R2 & R3). cbn [fst snd] in R2, R3. subst va. pose proof (ext_len _ _ S2).
    eapply wp_step; [apply throw_at|]. eapply wp_new_hidden; [exact C2|len|]. intros C3.
    eapply fin_intro; [eapply ext_trans; [exact X1|]; eapply ext_trans; [exact X2|apply ext_app]|
      eapply ext_trans; [exact S1|]; eapply ext_trans; [exact S2|apply ext_app]|len|exact C3|].
    split; [|eexists _, _, _, _, _, _, _; reflexivity].
    destruct (fresh_new w2 sg2 (NFSig (mkFsig q cc FC_Global rq o v params ne)) (ctx_len _ _ _ _ _ _ C2)) as (F1 & F2 & F3).
    split; [lia|]. split; [exact F2|]. eexists. split; [exact F3|]. split; [reflexivity|]. cbn [dsig fs_quals fs_cc fs_ref fs_variadic fs_noexcept fs_ret fs_params].
    repeat split; auto.
    - eapply opt_rel_mono; [|exact R1]. intros h y. apply DT_sub. apply ext_sub. eapply ext_trans; [exact X2|apply ext_app].
    - eapply opt_rel_mono; [|exact R3]. cbv beta. intros h y. apply DS_sub. apply ext_sub. apply ext_app.
  Qed.
End Types.
