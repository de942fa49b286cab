(** The two parsers for Decide.v: under any two environments whatsoever the parser takes the same
    path over the same text and meets the same error, unless one of the runs breaks off with a
    back-reference, node-budget or output-limit error.  Proof infrastructure; see Decide.v. *)
From Verif Require Import Parser.

(** ** Printing fails only by running out of memory *)
Definition ow (w : W) : Prop := forall b, match w b with (_, Err e) => e = Io OutOfMemory | _ => True end.
Section Ow.
  Variable E : env.
  Lemma ow_ret : ow w_ret. Proof. intros b. exact I. Qed.
  Lemma ow_panic : ow w_panic. Proof. intros b. exact I. Qed.
  Lemma ow_fuel : ow w_fuel. Proof. intros b. exact I. Qed.
  Lemma ow_seq m k : ow m -> ow k -> ow (m >> k).
  Proof. intros Hm Hk b. unfold w_seq. specialize (Hm b). destruct (m b) as [b' [[]|e| |]]; try exact Hm. exact (Hk b'). Qed.
  Lemma ow_if c m : ow m -> ow (w_if c m).
  Proof. destruct c; intros H; [exact H|exact ow_ret]. Qed.
  Lemma ow_opt {A} (o : option A) f : (forall a, ow (f a)) -> ow (w_opt o f).
  Proof. destruct o; intros H; [apply H|exact ow_ret]. Qed.
  Lemma ow_str x : ow (w_str E x).
  Proof. intros b. unfold w_str. destruct x as [|z x]; [exact I|]. cbv zeta. destruct (_ <? _)%N; [exact I|reflexivity]. Qed.
  Lemma ow_space : ow (space_if_necessary E).
  Proof.
    intros b. unfold space_if_necessary. destruct (last_char b) as [c|]; [|exact I]. destruct (is_alphanumeric E c || (c =? ch ">")%N); [|exact I].
    apply ow_str.
  Qed.
  Lemma ow_variadic : ow (fun b => match last_char b with Some c => w_if (negb (c =? ch "(")%N) (put E (L ", ")) b | None => w_ret b end).
  Proof. intros b. destruct (last_char b) as [c|]; [|exact I]. apply ow_if, ow_str. Qed.
  Ltac g1 := match goal with
    | |- ow (_ >> _) => apply ow_seq
    | |- ow w_ret => apply ow_ret
    | |- ow w_panic => apply ow_panic
    | |- ow w_fuel => apply ow_fuel
    | |- ow (w_if _ _) => apply ow_if
    | |- ow (w_opt _ _) => apply ow_opt; intros ?
    | |- ow (put _ _) => apply ow_str
    | |- ow (w_str _ _) => apply ow_str
    | |- ow (space_if_necessary _) => apply ow_space
    | |- ow (fun b => match last_char b with _ => _ end) => apply ow_variadic
    | |- ow (if ?c then _ else _) => destruct c
    end.
  Ltac gs := repeat g1.
  Lemma ow_restrict : ow (single_restrict E). Proof. unfold single_restrict. gs. Qed.
  Lemma ow_present p m sb k : ow m -> (forall b, ow (k b)) -> ow (if_present E p m sb k).
  Proof. intros Hm Hk. unfold if_present. gs; auto. Qed.
  Lemma ow_quals q sb sa : ow (out_quals E q sb sa).
  Proof.
    unfold out_quals. gs. intros b. refine (ow_seq _ _ _ _ b).
    - repeat (apply ow_present; [first [apply ow_restrict|unfold single_const, single_volatile; gs]|intros ?]). gs.
    - intros c. refine (ow_if _ _ _ c). gs.
  Qed.
  Lemma ow_cc c : ow (out_cc E c). Proof. unfold out_cc. gs. Qed.
  Variable sg : store.
  Section Rec.
    Variable rec : omode -> kind -> handle -> W.
    Hypothesis Hrec : forall m k h, ow (rec m k h).
    Ltac g2 := first [g1|apply ow_cc|apply ow_quals|apply Hrec].
    Ltac gt := repeat g2.
    Lemma ow_fsig_pre f p : ow (fsig_pre E rec f p). Proof. unfold fsig_pre. gt. Qed.
    Lemma ow_fsig_post f p : ow (fsig_post E rec f p).
    Proof. unfold fsig_post. gt; try (destruct (fs_params f); gt); match goal with a : ref_qual |- _ => destruct a end; gt. Qed.
    Lemma ow_sig_pre n p : ow (sig_pre E rec n p).
    Proof. destruct n; cbn [sig_pre]; gt; [apply ow_fsig_pre|unfold thunk_pre; gt; apply ow_fsig_pre]. Qed.
    Lemma ow_sig_post n p : ow (sig_post E rec n p).
    Proof. destruct n; cbn [sig_post]; gt; [apply ow_fsig_post|unfold thunk_post; gt; apply ow_fsig_post]. Qed.
    Lemma ow_ptr_pre q a cls p : ow (ptr_pre E sg rec q a cls p).
    Proof. unfold ptr_pre. destruct (resolve sg KType p) as [n|]; gt; [apply ow_sig_pre|]. destruct a as [[]|]; gt. Qed.
    Lemma ow_ptr_post p : ow (ptr_post E sg rec p).
    Proof. unfold ptr_post. destruct (resolve sg KType p) as [n|]; gt. apply ow_sig_post. Qed.
    Lemma ow_int v neg : ow (int_out E v neg). Proof. unfold int_out. gt. Qed.
    Lemma ow_dim h : ow (one_dim E sg h).
    Proof. unfold one_dim. destruct (resolve sg KAny h) as [[]|]; gt. apply ow_int. Qed.
    Lemma ow_rest_dims l : ow (rest_dims E sg l).
    Proof. induction l; cbn [rest_dims]; gt; [apply ow_dim|assumption]. Qed.
    Lemma ow_dims h : ow (out_dims E sg h).
    Proof. unfold out_dims. destruct (resolve sg KNodes h) as [[]|]; gt. destruct l; gt; [apply ow_dim|apply ow_rest_dims]. Qed.
    Lemma ow_tp tp : ow (out_tp E rec tp). Proof. unfold out_tp. gt. Qed.
    Lemma ow_rest sep l : ow (rest_nodes E rec sep l).
    Proof. induction l; cbn [rest_nodes]; gt. assumption. Qed.
    Lemma ow_nodes sep l : ow (out_nodes E rec sep l).
    Proof. destruct l; cbn [out_nodes]; gt. apply ow_rest. Qed.
    Lemma ow_pre n : ow (out_pre E sg rec n).
    Proof.
      destruct n; cbn [out_pre]; gt; first [apply ow_fsig_pre|apply ow_ptr_pre|idtac].
      unfold thunk_pre. gt. apply ow_fsig_pre.
    Qed.
    Lemma ow_post n : ow (out_post E sg rec n).
    Proof.
      destruct n; cbn [out_post]; gt; first [apply ow_fsig_post|apply ow_ptr_post|apply ow_dims|idtac].
      unfold thunk_post. gt. apply ow_fsig_post.
    Qed.
    Lemma ow_var nm sc ty : ow (var_out E rec nm sc ty).
    Proof.
      unfold var_out. destruct sc as [[]|]; cbv beta iota zeta; repeat apply ow_seq; cbn [w_opt]; gt;
        destruct nm as [[]|]; gt; cbv zeta; gt.
    Qed.
    Lemma ow_offs zs : ow (fold_right (fun z k => put E (L ", " ++ dec_Z z) >> k) (put E (L "}")) zs).
    Proof. induction zs; cbn [fold_right]; gt. assumption. Qed.
    Lemma ow_tpr sym offs a : ow (tpr_out E rec sym offs a).
    Proof. unfold tpr_out. destruct offs; gt. apply ow_offs. Qed.
    Lemma ow_full n : ow (out_full E sg rec n).
    Proof.
      destruct n; cbn [out_full] in *;
        try (apply ow_seq; [apply ow_pre|apply ow_post]); gt;
        first [apply ow_tp|apply ow_int|apply ow_var|apply ow_tpr|idtac].
      - destruct id; gt.
      - apply ow_nodes.
      - destruct (resolve sg KNodes components) as [[]|]; gt. apply ow_nodes.
      - unfold strlit_out. gt.
    Qed.
    Lemma ow_node m n : ow (out_node E sg rec m n).
    Proof. destruct m; cbn [out_node]; [apply ow_full|apply ow_pre|apply ow_post]. Qed.
  End Rec.
  Lemma ow_out fuel : forall m k h, ow (out fuel E sg m k h).
  Proof.
    induction fuel as [|fuel IH]; intros m k h; cbn [out]; [gs|]. destruct (resolve sg k h) as [n|] eqn:Hn; [|gs].
    apply ow_node; exact IH.
  Qed.
  Lemma ow_output k h : ow (output E sg k h). Proof. apply ow_out. Qed.
End Ow.

(** ** What the parser's choices can depend on *)
Definition bad {A} (r : res A) : Prop :=
  match r with Panic | Fuel | Err InvalidBackRef | Err MaliciousInput | Err (Io OutOfMemory) | Err Utf8Error => True | _ => False end.
(** The variant of a node and which of its optional parts are there. *)
Definition tag (n : node) : nat * bool :=
  match n with
  | NPrim _ _ => (0, false) | NFSig g => (1, is_some (fs_ret g)) | NThunk g _ => (2, is_some (fs_ret g))
  | NPtr _ _ c _ => (3, is_some c) | NTag _ _ _ => (4, false) | NArr _ _ _ => (5, false) | NCustom _ _ => (6, false)
  | NVcall _ _ => (7, false) | NDyn _ _ _ => (8, false) | NNamed _ _ => (9, false) | NIntrinsic _ _ => (10, false)
  | NLitOp _ _ => (11, false) | NLsg _ _ _ => (12, false) | NConv _ t => (13, is_some t) | NStructor _ _ _ => (14, false)
  | NRtti _ _ _ _ _ => (15, false) | NNodes _ => (16, false) | NQual _ => (17, false) | NTpr _ _ _ _ => (18, false)
  | NInt _ _ => (19, false) | NMd5 _ => (20, false) | NSpecial _ _ _ => (21, false) | NLsgVar _ _ => (22, false)
  | NStrLit _ _ _ _ => (23, false) | NVar _ _ _ => (24, false) | NFunc _ _ => (25, false)
  end.
Definition conv (n : node) : bool := match n with NConv _ _ => true | _ => false end.
Ltac tags n n' H := destruct n; destruct n'; try discriminate H.
Lemma tag_ident n n' : tag n = tag n' -> is_ident n = is_ident n'.
Proof. intros H. tags n n' H; reflexivity. Qed.
Lemma tag_conv n n' : tag n = tag n' -> conv n = conv n'.
Proof. intros H. tags n n' H; reflexivity. Qed.
(** What happens to a node that stays. *)
Definition keep (n n1 : node) : Prop := tag n1 = tag n /\ match n with NQual _ | NNodes _ => n1 = n | _ => True end.
Lemma keep_refl n : keep n n. Proof. split; [reflexivity|destruct n; auto]. Qed.
Lemma keep_trans n n1 n2 : keep n n1 -> keep n1 n2 -> keep n n2.
Proof. intros [H1 H2] [H3 H4]. split; [congruence|]. destruct n; auto; subst n1; exact H4. Qed.
Definition St (sg sg1 : store) : Prop :=
  length sg <= length sg1 /\ forall h n, nth_error sg h = Some n -> exists n1, nth_error sg1 h = Some n1 /\ keep n n1.
Lemma St_refl sg : St sg sg. Proof. split; [lia|]. intros h n H. exists n. split; [assumption|apply keep_refl]. Qed.
Lemma St_trans a b c : St a b -> St b c -> St a c.
Proof.
  intros [L1 H1] [L2 H2]. split; [lia|]. intros h n H. destruct (H1 h n H) as (n1 & N1 & K1). destruct (H2 h n1 N1) as (n2 & N2 & K2).
  exists n2. split; [assumption|]. eapply keep_trans; eassumption.
Qed.
Lemma St_app sg n : St sg (sg ++ [n]).
Proof.
  split; [rewrite app_length; lia|]. intros h m H. exists m. split; [|apply keep_refl]. rewrite nth_error_app1; [assumption|]. apply nth_error_Some. congruence.
Qed.
Lemma upd_len (sg : store) h n : length (upd sg h n) = length sg.
Proof. revert h. induction sg as [|a sg IH]; intros [|h]; cbn [upd length]; auto. Qed.
Lemma upd_same (sg : store) h n m : nth_error sg h = Some m -> nth_error (upd sg h n) h = Some n.
Proof. revert h. induction sg as [|a sg IH]; intros [|h]; cbn [upd nth_error]; try discriminate; auto. Qed.
Lemma upd_other (sg : store) h n i : i <> h -> nth_error (upd sg h n) i = nth_error sg i.
Proof. revert h i. induction sg as [|a sg IH]; intros [|h] [|i] Hi; cbn [upd nth_error]; auto; congruence. Qed.
Lemma St_upd u sg h n n1 : St u sg -> nth_error sg h = Some n -> keep n n1 \/ length u <= h -> St u (upd sg h n1).
Proof.
  intros [L1 H1] Hn Hk. split; [rewrite upd_len; lia|]. intros i m Hm. destruct (H1 i m Hm) as (m1 & N1 & K1). destruct (Nat.eq_dec i h) as [->|Hi].
  - exists n1. split; [eapply upd_same; eassumption|]. assert (m1 = n) as -> by congruence. destruct Hk as [Hk|Hk]; [eapply keep_trans; eassumption|].
    exfalso. assert (h < length u) by (apply nth_error_Some; congruence). lia.
  - exists m1. rewrite upd_other by assumption. auto.
Qed.
Definition lk (sg sg' : store) (h h' : handle) : Prop :=
  exists n n', nth_error sg h = Some n /\ nth_error sg' h' = Some n' /\ tag n = tag n'.
Lemma lk_St sg sg' t t' h h' : lk sg sg' h h' -> St sg t -> St sg' t' -> lk t t' h h'.
Proof.
  intros (n & n' & H1 & H2 & H3) [_ S1] [_ S2]. destruct (S1 _ _ H1) as (m & M1 & [K1 _]). destruct (S2 _ _ H2) as (m' & M2 & [K2 _]).
  exists m, m'. repeat split; congruence.
Qed.
Lemma lks_St sg sg' t t' l l' : Forall2 (lk sg sg') l l' -> St sg t -> St sg' t' -> Forall2 (lk t t') l l'.
Proof. intros H S1 S2. induction H; constructor; auto. eapply lk_St; eassumption. Qed.
(** A qualified name with its last component. *)
Definition qual (sg sg' : store) (q q' id id' : handle) : Prop :=
  lk sg sg' id id' /\
  exists c c' l l', nth_error sg q = Some (NQual c) /\ nth_error sg c = Some (NNodes (l ++ [id])) /\
    nth_error sg' q' = Some (NQual c') /\ nth_error sg' c' = Some (NNodes (l' ++ [id'])) /\ Forall2 (lk sg sg') l l'.
Lemma fixed_St sg t h n : St sg t -> nth_error sg h = Some n -> match n with NQual _ | NNodes _ => True | _ => False end -> nth_error t h = Some n.
Proof. intros [_ S1] H Hn. destruct (S1 _ _ H) as (m & M1 & [_ K1]). destruct n; try contradiction; subst m; assumption. Qed.
Lemma qual_St sg sg' t t' q q' id id' : qual sg sg' q q' id id' -> St sg t -> St sg' t' -> qual t t' q q' id id'.
Proof.
  intros (Hl & c & c' & l & l' & H1 & H2 & H3 & H4 & H5) S1 S2. split; [eapply lk_St; eassumption|].
  exists c, c', l, l'. repeat split; try (eapply fixed_St; [eassumption|eassumption|exact I]). eapply lks_St; eassumption.
Qed.
Definition named (sg : store) (l : list handle) : Prop := Forall (fun h => exists tp x, nth_error sg h = Some (NNamed tp x)) l.
Lemma named_St sg t l : named sg l -> St sg t -> named t l.
Proof.
  intros H [_ S1]. eapply Forall_impl; [|exact H]. intros h (tp & x & Hx). destruct (S1 _ _ Hx) as (m & M1 & [K1 _]).
  destruct m; try discriminate K1. eauto.
Qed.
Record Q (s s' : st) : Prop := {
  q_ms : s_ms s' = s_ms s;
  q_fps : length (s_fps s') = length (s_fps s);
  q_n1 : named (s_store s) (s_names s);
  q_n2 : named (s_store s') (s_names s')
}.

(** ** Two runs *)
Definition sat {A} (u u' : store) (m m' : M A) (s s' : st) (V : store -> store -> A -> A -> Prop) : Prop :=
  bad (m s) \/ bad (m' s') \/ (exists e, m s = Err e /\ m' s' = Err e) \/
  (exists a a' t t', m s = Ok (a, t) /\ m' s' = Ok (a', t') /\ Q t t' /\ St u (s_store t) /\ St u' (s_store t') /\ V (s_store t) (s_store t') a a').
Definition sim {A} (m m' : M A) (V : store -> store -> A -> A -> Prop) : Prop :=
  forall s s', Q s s' -> sat (s_store s) (s_store s') m m' s s' V.
Definition anyv {A} (_ _ : store) (_ _ : A) : Prop := True.
Definition eqv {A} (_ _ : store) (a a' : A) : Prop := a = a'.
Lemma bad_bind {A B} (m : M A) (f : A -> M B) s : bad (m s) -> bad (bind m f s).
Proof. unfold bad, bind. destruct (m s) as [[a t]|e| |]; try contradiction; auto. Qed.
Lemma sat_bind {A B} (V : store -> store -> A -> A -> Prop) (W : store -> store -> B -> B -> Prop) u u' (m m' : M A) (f f' : A -> M B) s s' :
  sat (s_store s) (s_store s') m m' s s' V -> St u (s_store s) -> St u' (s_store s') ->
  (forall a a' t t', Q t t' -> St (s_store s) (s_store t) -> St (s_store s') (s_store t') -> St u (s_store t) -> St u' (s_store t') ->
     V (s_store t) (s_store t') a a' -> sat u u' (f a) (f' a') t t' W) ->
  sat u u' (bind m f) (bind m' f') s s' W.
Proof.
  intros [H|[H|[(e & H1 & H2)|(a & a' & t & t' & H1 & H2 & HQ & S1 & S2 & HV)]]] U1 U2 Hf.
  - left. apply bad_bind, H.
  - right. left. apply bad_bind, H.
  - right. right. left. exists e. unfold bind. rewrite H1, H2. auto.
  - specialize (Hf a a' t t' HQ S1 S2 (St_trans _ _ _ U1 S1) (St_trans _ _ _ U2 S2) HV). unfold sat, bind in *. rewrite H1, H2. exact Hf.
Qed.
Lemma sat_weak {A} (V W : store -> store -> A -> A -> Prop) u u' w w' (m m' : M A) s s' : sat w w' m m' s s' V -> St u w -> St u' w' ->
  (forall a a' t t', Q t t' -> St w (s_store t) -> St w' (s_store t') -> V (s_store t) (s_store t') a a' -> W (s_store t) (s_store t') a a') ->
  sat u u' m m' s s' W.
Proof.
  intros [H|[H|[H|(a & a' & t & t' & H1 & H2 & HQ & S1 & S2 & HV)]]] U1 U2 Hf; unfold sat; auto.
  right. right. right. exists a, a', t, t'. repeat (split; [first [assumption|eapply St_trans; eassumption]|]). eapply Hf; eassumption.
Qed.
Lemma sat_ret {A} (V : store -> store -> A -> A -> Prop) u u' (a a' : A) s s' : Q s s' -> St u (s_store s) -> St u' (s_store s') -> V (s_store s) (s_store s') a a' -> sat u u' (ret a) (ret a') s s' V.
Proof. intros. right. right. right. exists a, a', s, s'. auto 10. Qed.
Lemma sat_fail {A} V u u' e s s' : sat u u' (@fail A e) (fail e) s s' V.
Proof. right. right. left. exists e. auto. Qed.
Lemma sat_panic {A} V u u' (m' : M A) s s' : sat u u' panic m' s s' V.
Proof. left. exact I. Qed.
Lemma sat_panic' {A} V u u' (m : M A) s s' : sat u u' m panic s s' V.
Proof. right. left. exact I. Qed.
Lemma sat_fuel {A} V u u' (m' : M A) s s' : sat u u' nofuel m' s s' V.
Proof. left. exact I. Qed.
Lemma sat_get {B} W u u' (f f' : st -> M B) s s' : sat u u' (f s) (f' s') s s' W -> sat u u' (bind get f) (bind get f') s s' W.
Proof. intros H. exact H. Qed.
Lemma sim_ret {A} (V : store -> store -> A -> A -> Prop) a a' : (forall sg sg', V sg sg' a a') -> sim (ret a) (ret a') V.
Proof. intros H s s' HQ. apply sat_ret; auto using St_refl. Qed.
Lemma sim_bind {A B} (V : store -> store -> A -> A -> Prop) (W : store -> store -> B -> B -> Prop) (m m' : M A) (f f' : A -> M B) : sim m m' V -> (forall a a' sg sg', V sg sg' a a' -> sim (f a) (f' a') W) -> sim (bind m f) (bind m' f') W.
Proof.
  intros Hm Hf s s' HQ. eapply sat_bind; [apply Hm, HQ|apply St_refl|apply St_refl|]. intros a a' t t' HQ' S1 S2 _ _ HV.
  eapply sat_weak; [exact (Hf _ _ _ _ HV t t' HQ')|assumption|assumption|]. auto.
Qed.
Lemma sim_bind_eq {A B} W (m m' : M A) (f f' : A -> M B) : sim m m' eqv -> (forall a, sim (f a) (f' a) W) -> sim (bind m f) (bind m' f') W.
Proof. intros Hm Hf. eapply sim_bind; [exact Hm|]. intros a a' sg sg' <-. apply Hf. Qed.
Lemma sim_any {A} V (m m' : M A) : sim m m' V -> sim m m' anyv.
Proof. intros H s s' HQ. eapply sat_weak; [apply H, HQ|apply St_refl|apply St_refl|]. intros; exact I. Qed.
Lemma sim_ok_or {A} (o : option A) e : sim (ok_or o e) (ok_or o e) eqv.
Proof. destruct o; [apply sim_ret; reflexivity|intros s s' _; apply sat_fail]. Qed.
Lemma sim_text : sim text text eqv.
Proof. intros s s' H. right. right. right. exists (ms_str (s_ms s)), (ms_str (s_ms s)), s, s'. unfold text. rewrite (q_ms _ _ H). repeat (split; [first [reflexivity|assumption|apply St_refl]|]). reflexivity. Qed.
Lemma sim_len : sim len_chars len_chars eqv.
Proof. intros s s' H. right. right. right. exists (ms_chars (s_ms s)), (ms_chars (s_ms s)), s, s'. unfold len_chars. rewrite (q_ms _ _ H). repeat (split; [first [reflexivity|assumption|apply St_refl]|]). reflexivity. Qed.
Lemma sim_lift {A} (f : mstring -> mres A) : sim (lift f) (lift f) eqv.
Proof.
  intros s s' H. unfold sat, lift. rewrite (q_ms _ _ H). destruct (f (s_ms s)) as [[o m]|e| |].
  - right. right. right. exists o, o, (set_ms m s), (set_ms m s'). repeat (split; [first [reflexivity|apply St_refl|destruct H; constructor; cbn; auto]|]). reflexivity.
  - right. right. left. exists e. auto.
  - left. exact I.
  - left. exact I.
Qed.
Ltac s1 :=
  match goal with
  | |- sim (bind _ _) (bind _ _) _ => apply sim_bind_eq; [|intros ?]
  | |- sim (ret _) (ret _) eqv => apply sim_ret; reflexivity
  | |- sim (ret _) (ret _) anyv => apply sim_ret; intros; exact I
  | |- sim (fail _) _ _ => intros ? ? _; apply sat_fail
  | |- sim panic _ _ => intros ? ? _; apply sat_panic
  | |- sim nofuel _ _ => intros ? ? _; apply sat_fuel
  | |- sim text _ eqv => apply sim_text
  | |- sim len_chars _ eqv => apply sim_len
  | |- sim (ok_or _ _) _ eqv => apply sim_ok_or
  | |- sim (lift _) _ eqv => apply sim_lift
  | |- sim (if ?b then _ else _) (if ?b then _ else _) _ => destruct b
  | |- sim (match ?x with _ => _ end) (match ?x with _ => _ end) _ => destruct x
  end.
Ltac sa := repeat s1.
Lemma sim_next e : sim (next_char e) (next_char e) eqv. Proof. unfold next_char. sa. Qed.
Lemma sim_eat_if f : sim (eat_if f) (eat_if f) eqv. Proof. unfold eat_if. sa. Qed.
Lemma sim_eat_char c : sim (eat_char c) (eat_char c) eqv. Proof. unfold eat_char. sa. Qed.
Lemma sim_eat_str p : sim (eat_str p) (eat_str p) eqv. Proof. unfold eat_str. sa. Qed.
Lemma sim_expect_char c e : sim (expect_char c e) (expect_char c e) eqv. Proof. unfold expect_char, eat_char. sa. Qed.
Lemma sim_expect_str p e : sim (expect_str p e) (expect_str p e) eqv. Proof. unfold expect_str, eat_str. sa. Qed.
Ltac sb := repeat first
  [ apply sim_next | apply sim_eat_if | apply sim_eat_char | apply sim_eat_str | apply sim_expect_char | apply sim_expect_str | s1 ].
Lemma sim_first l : sim (eat_first l) (eat_first l) eqv.
Proof. induction l as [|p l IH]; cbn [eat_first]; sb. exact IH. Qed.
Lemma sim_special t : sim (consume_special t) (consume_special t) eqv.
Proof. induction t as [|[p k] t IH]; cbn [consume_special]; sb. exact IH. Qed.
Lemma sim_pext : sim pointer_ext_qualifiers pointer_ext_qualifiers eqv. Proof. unfold pointer_ext_qualifiers. sb. Qed.
Lemma sim_number_loop fuel : forall c n, sim (number_loop fuel c n) (number_loop fuel c n) eqv.
Proof. induction fuel; intros c n; cbn [number_loop]; sb. apply IHfuel. Qed.
Lemma sim_number : sim demangle_number demangle_number eqv. Proof. unfold demangle_number. sb. apply sim_number_loop. Qed.
Lemma sim_unsigned : sim demangle_unsigned demangle_unsigned eqv. Proof. unfold demangle_unsigned. s1; [apply sim_number|]. sb. Qed.
Lemma sim_signed : sim demangle_signed demangle_signed eqv. Proof. unfold demangle_signed. s1; [apply sim_number|]. sb. Qed.
Lemma sim_u32 n e : sim (to_u32 n e) (to_u32 n e) eqv. Proof. unfold to_u32. sb. Qed.
Lemma sim_i32 n e : sim (to_i32 n e) (to_i32 n e) eqv. Proof. unfold to_i32. sb. Qed.
Lemma sim_quals : sim demangle_qualifiers demangle_qualifiers eqv. Proof. unfold demangle_qualifiers. sb. Qed.
Lemma sim_pcv : sim demangle_pointer_cv_qualifiers demangle_pointer_cv_qualifiers eqv. Proof. unfold demangle_pointer_cv_qualifiers. sb. Qed.
Lemma sim_rq : sim demangle_function_ref_qualifier demangle_function_ref_qualifier eqv. Proof. unfold demangle_function_ref_qualifier. sb. Qed.
Lemma sim_cc : sim demangle_calling_convention demangle_calling_convention eqv. Proof. unfold demangle_calling_convention. sb. Qed.
Lemma sim_sc : sim demangle_variable_storage_class demangle_variable_storage_class eqv. Proof. unfold demangle_variable_storage_class. sb. Qed.
Lemma sim_throw : sim demangle_throw_specification demangle_throw_specification eqv. Proof. unfold demangle_throw_specification. sb. Qed.
Lemma sim_fc : sim demangle_function_class demangle_function_class eqv. Proof. unfold demangle_function_class. cbv zeta. sb. Qed.
Lemma sim_prim : sim demangle_primitive_kind demangle_primitive_kind eqv. Proof. unfold demangle_primitive_kind. sb. Qed.
Lemma sim_translate c g : sim (translate_intrinsic c g) (translate_intrinsic c g) eqv. Proof. unfold translate_intrinsic. cbv zeta. sb. Qed.
Lemma sim_char : sim demangle_char_literal demangle_char_literal eqv. Proof. unfold demangle_char_literal. sb. Qed.
Lemma sim_wchar : sim demangle_wchar_literal demangle_wchar_literal eqv. Proof. unfold demangle_wchar_literal. sb; apply sim_char. Qed.
Lemma sim_offsets n : sim (read_offsets n) (read_offsets n) eqv.
Proof. induction n; cbn [read_offsets]; sb; [apply sim_signed|assumption]. Qed.
Lemma sim_adjust fc : sim (this_adjust fc) (this_adjust fc) eqv.
Proof. unfold this_adjust. sb; apply sim_signed. Qed.

(** ** Nodes *)
Definition lkv (t t' : store) (h h' : handle) : Prop := lk t t' h h'.
(** A conversion operator among the results was made by this call. *)
Definition fr (w t : store) (h : handle) : Prop := forall n, nth_error t h = Some n -> conv n = true -> length w <= h.
Definition idv (w w' t t' : store) (h h' : handle) : Prop := lk t t' h h' /\ fr w t h /\ fr w' t' h'.
Lemma fr_St w t t1 h : fr w t h -> (exists n, nth_error t h = Some n) -> St t t1 -> fr w t1 h.
Proof.
  intros H (n & Hn) [_ S1] m Hm Hc. destruct (S1 _ _ Hn) as (m1 & M1 & [K1 _]). assert (m1 = m) as -> by congruence.
  apply (H n Hn). rewrite <- (tag_conv _ _ K1). exact Hc.
Qed.
Lemma fr_down u w t h : fr w t h -> St u w -> fr u t h.
Proof. intros H [L1 _] n Hn Hc. specialize (H n Hn Hc). lia. Qed.
Lemma idv_St w w' t t' t1 t1' h h' : idv w w' t t' h h' -> St t t1 -> St t' t1' -> idv w w' t1 t1' h h'.
Proof.
  intros (H1 & H2 & H3) S1 S2. pose proof H1 as (n & n' & N1 & N2 & _). split; [eapply lk_St; eassumption|].
  split; eapply fr_St; try eassumption; eauto.
Qed.
Lemma idv_down u u' w w' t t' h h' : idv w w' t t' h h' -> St u w -> St u' w' -> idv u u' t t' h h'.
Proof. intros (H1 & H2 & H3) S1 S2. split; [assumption|]. split; eapply fr_down; eassumption. Qed.
Definition simi (m m' : M handle) : Prop := forall s s', Q s s' -> sat (s_store s) (s_store s') m m' s s' (idv (s_store s) (s_store s')).
Lemma simi_bind {A} V (m m' : M A) f f' : sim m m' V -> (forall a a' sg sg', V sg sg' a a' -> simi (f a) (f' a')) -> simi (bind m f) (bind m' f').
Proof.
  intros Hm Hf s s' HQ. eapply sat_bind; [apply Hm, HQ|apply St_refl|apply St_refl|]. intros a a' t t' HQ' S1 S2 _ _ HV.
  eapply sat_weak; [exact (Hf _ _ _ _ HV t t' HQ')|assumption|assumption|]. intros b b' r r' _ _ _ Hi. eapply idv_down; eassumption.
Qed.
Lemma simi_eq {A} (m m' : M A) f f' : sim m m' eqv -> (forall a, simi (f a) (f' a)) -> simi (bind m f) (bind m' f').
Proof. intros Hm Hf. eapply simi_bind; [exact Hm|]. intros a a' sg sg' <-. apply Hf. Qed.
Lemma simi_lk m m' : simi m m' -> sim m m' lkv.
Proof. intros H s s' HQ. eapply sat_weak; [apply H, HQ|apply St_refl|apply St_refl|]. intros a a' t t' _ _ _ [Hl _]. exact Hl. Qed.
Lemma sat_bind0 {A B} (V : store -> store -> A -> A -> Prop) (W : store -> store -> B -> B -> Prop) u u' (m m' : M A) (f f' : A -> M B) s s' :
  sat u u' m m' s s' V ->
  (forall a a' t t', Q t t' -> St u (s_store t) -> St u' (s_store t') -> V (s_store t) (s_store t') a a' -> sat u u' (f a) (f' a') t t' W) ->
  sat u u' (bind m f) (bind m' f') s s' W.
Proof.
  intros [H|[H|[(e & H1 & H2)|(a & a' & t & t' & H1 & H2 & HQ & S1 & S2 & HV)]]] Hf.
  - left. apply bad_bind, H.
  - right. left. apply bad_bind, H.
  - right. right. left. exists e. unfold bind. rewrite H1, H2. auto.
  - specialize (Hf a a' t t' HQ S1 S2 HV). unfold sat, bind in *. rewrite H1, H2. exact Hf.
Qed.
(** A qualified name, as far as its last component. *)
Definition qualw (sg sg' : store) (q q' id id' : handle) : Prop :=
  lk sg sg' id id' /\
  exists c c' l l', nth_error sg q = Some (NQual c) /\ nth_error sg c = Some (NNodes (l ++ [id])) /\
    nth_error sg' q' = Some (NQual c') /\ nth_error sg' c' = Some (NNodes (l' ++ [id'])).
Lemma qual_w sg sg' q q' id id' : qual sg sg' q q' id id' -> qualw sg sg' q q' id id'.
Proof. intros (H & c & c' & l & l' & H1 & H2 & H3 & H4 & _). split; [assumption|]. exists c, c', l, l'. auto. Qed.
Lemma qualw_St sg sg' t t' q q' id id' : qualw sg sg' q q' id id' -> St sg t -> St sg' t' -> qualw t t' q q' id id'.
Proof.
  intros (Hl & c & c' & l & l' & H1 & H2 & H3 & H4) S1 S2. split; [eapply lk_St; eassumption|].
  exists c, c', l, l'. repeat split; try (eapply fixed_St; [eassumption|eassumption|exact I]).
Qed.
Definition vf (n : node) : bool := match n with NVar _ _ _ | NFunc _ _ => true | _ => false end.
(** A symbol: its name, if it has one, is a qualified name. *)
Definition pv (t t' : store) (h h' : handle) : Prop :=
  exists n n', nth_error t h = Some n /\ nth_error t' h' = Some n' /\ tag n = tag n' /\
    match sym_name n, sym_name n' with
    | Some q, Some q' => exists id id', qualw t t' q q' id id'
    | None, None => True
    | _, _ => False
    end.
Lemma f2_nth {A} (R : A -> A -> Prop) l l' i : Forall2 R l l' ->
  match nth_error l i, nth_error l' i with Some a, Some a' => R a a' | None, None => True | _, _ => False end.
Proof. intros H. revert i. induction H as [|a a' l l' Ha Hl IH]; intros [|i]; cbn; auto. apply IH. Qed.

Definition kp (f : node -> node) : Prop := forall n, keep n (f n).
Lemma kp_quals f : kp (node_quals f). Proof. intros []; split; cbn; auto. Qed.
Lemma kp_append q : kp (append_quals q). Proof. apply kp_quals. Qed.
Lemma kp_set q : kp (set_quals q). Proof. apply kp_quals. Qed.
Lemma kp_fc c : kp (set_function_class c). Proof. intros []; split; cbn; auto. Qed.
Lemma kp_tp c : kp (set_template_params c). Proof. intros []; split; cbn; auto. Qed.
Lemma kp_sym c : kp (set_sym_name c). Proof. intros []; split; cbn; auto. Qed.
Lemma kp_class c : kp (set_class c). Proof. intros []; split; cbn; auto. Qed.
Lemma kp_scope c : kp (set_scope_index c). Proof. intros []; split; cbn; auto. Qed.
Lemma kp_func c : kp (set_func_name c). Proof. intros []; split; cbn; auto. Qed.
Lemma kp_vcall c : kp (set_vcall_offset c). Proof. intros []; split; cbn; auto. Qed.
Ltac kps := first [apply kp_append|apply kp_set|apply kp_fc|apply kp_tp|apply kp_sym|apply kp_class|apply kp_scope|apply kp_func|apply kp_vcall].
Lemma resolve_some sg k h : match resolve sg k h with Some n => nth_error sg h = Some n /\ hkind k n = true | None => True end.
Proof. unfold resolve. destruct (nth_error sg h) as [n|]; [|exact I]. destruct (hkind k n) eqn:Hk; auto. Qed.
Definition modv (s s' : store) k h h' f f' (t t' : store) (_ _ : unit) : Prop :=
  exists n n', nth_error s h = Some n /\ nth_error s' h' = Some n' /\ hkind k n = true /\ hkind k n' = true /\ t = upd s h (f n) /\ t' = upd s' h' (f' n').
Lemma sat_modify_at u u' k h h' f f' s s' : Q s s' -> St u (s_store s) -> St u' (s_store s') ->
  (forall n, nth_error (s_store s) h = Some n -> hkind k n = true -> keep n (f n) \/ (conv n = true /\ conv (f n) = true /\ length u <= h)) ->
  (forall n, nth_error (s_store s') h' = Some n -> hkind k n = true -> keep n (f' n) \/ (conv n = true /\ conv (f' n) = true /\ length u' <= h')) ->
  sat u u' (modify k h f) (modify k h' f') s s' (modv (s_store s) (s_store s') k h h' f f').
Proof.
  intros HQ U1 U2 K1 K2. unfold sat, modify. pose proof (resolve_some (s_store s) k h) as R1. pose proof (resolve_some (s_store s') k h') as R2.
  destruct (resolve (s_store s) k h) as [n|]; [|left; exact I]. destruct (resolve (s_store s') k h') as [n'|]; [|right; left; exact I].
  destruct R1 as [N1 G1], R2 as [N2 G2]. specialize (K1 n N1 G1). specialize (K2 n' N2 G2).
  right. right. right. eexists tt, tt, _, _. split; [reflexivity|]. split; [reflexivity|].
  assert (Hn : forall w sg i m l g, St w sg -> nth_error sg i = Some m -> keep m (g m) \/ (conv m = true /\ conv (g m) = true /\ length w <= i) ->
    named sg l -> named (upd sg i (g m)) l).
  { intros w sg i m l g Hw Hm Hk Hl. eapply Forall_impl; [|exact Hl]. intros j (tp & x & Hj). destruct (Nat.eq_dec j i) as [->|Hi]; [|rewrite upd_other by assumption; eauto].
    rewrite (upd_same _ _ _ _ Hm). assert (m = NNamed tp x) as -> by congruence. destruct Hk as [[Hk _]|(Hk & _)]; [|discriminate].
    destruct (g (NNamed tp x)); try discriminate Hk. eauto. }
  split.
  { destruct HQ as [A1 A2 A3 A4]. constructor; cbn [s_ms s_fps s_names s_store set_store]; try assumption; [exact (Hn u _ _ _ _ _ U1 N1 K1 A3)|exact (Hn u' _ _ _ _ _ U2 N2 K2 A4)]. }
  split; [|split].
  - eapply St_upd; [exact U1|exact N1|tauto].
  - eapply St_upd; [exact U2|exact N2|tauto].
  - exists n, n'. auto 10.
Qed.
Lemma sat_modify k h h' f f' s s' : kp f -> kp f' -> Q s s' ->
  sat (s_store s) (s_store s') (modify k h f) (modify k h' f') s s' (modv (s_store s) (s_store s') k h h' f f').
Proof. intros K1 K2 HQ. apply sat_modify_at; auto using St_refl. Qed.
Lemma sim_modify k h h' f f' : kp f -> kp f' -> sim (modify k h f) (modify k h' f') anyv.
Proof. intros K1 K2 s s' HQ. eapply sat_weak; [apply sat_modify; assumption|apply St_refl|apply St_refl|]. intros; exact I. Qed.
Lemma sat_res {B} (W : store -> store -> B -> B -> Prop) u u' k h h' (f f' : node -> M B) s s' :
  (forall n n', nth_error (s_store s) h = Some n -> nth_error (s_store s') h' = Some n' -> hkind k n = true -> hkind k n' = true -> sat u u' (f n) (f' n') s s' W) ->
  sat u u' (bind (res_ k h) f) (bind (res_ k h') f') s s' W.
Proof.
  intros Hf. unfold sat, bind, res_. pose proof (resolve_some (s_store s) k h) as R1. pose proof (resolve_some (s_store s') k h') as R2.
  destruct (resolve (s_store s) k h) as [n|]; [|left; exact I]. destruct (resolve (s_store s') k h') as [n'|]; [|right; left; exact I].
  destruct R1 as [N1 G1], R2 as [N2 G2]. exact (Hf n n' N1 N2 G1 G2).
Qed.
Lemma lk_nth sg sg' h h' n n' : lk sg sg' h h' -> nth_error sg h = Some n -> nth_error sg' h' = Some n' -> tag n = tag n'.
Proof. intros (m & m' & H1 & H2 & H3) G1 G2. congruence. Qed.
Definition uidv (w w' : store) (id id' : handle) (t t' : store) (o o' : option handle) : Prop := t = w /\ t' = w' /\ ((o = Some id /\ o' = Some id') \/ (o = None /\ o' = None)).
Lemma sat_uid q q' id id' s s' : Q s s' -> qualw (s_store s) (s_store s') q q' id id' ->
  sat (s_store s) (s_store s') (unqualified_identifier q) (unqualified_identifier q') s s' (uidv (s_store s) (s_store s') id id').
Proof.
  intros HQ (Hl & c & c' & l & l' & H1 & H2 & H3 & H4). unfold unqualified_identifier. apply sat_res. intros n n' N1 N2 _ _.
  rewrite H1 in N1. rewrite H3 in N2. injection N1 as <-. injection N2 as <-. apply sat_res. intros n n' N1 N2 _ _.
  rewrite H2 in N1. rewrite H4 in N2. injection N1 as <-. injection N2 as <-. rewrite !rev_app_distr. cbn [rev app].
  apply sat_res. intros n n' N1 N2 _ _. rewrite <- (tag_ident _ _ (lk_nth _ _ _ _ _ _ Hl N1 N2)).
  apply sat_ret; try assumption; try apply St_refl. split; [reflexivity|]. split; [reflexivity|]. destruct (is_ident n); [left|right]; auto.
Qed.

Definition skip {A} (m : M A) (s : st) : Prop :=
  bad (m s) \/ exists a t, m s = Ok (a, t) /\ s_ms t = s_ms s /\ s_fps t = s_fps s /\ named (s_store t) (s_names t) /\ St (s_store s) (s_store t).
Lemma sat_skip {A} (m m' : M A) s s' : Q s s' -> skip m s -> skip m' s' -> sat (s_store s) (s_store s') m m' s s' anyv.
Proof.
  intros HQ [H|(a & t & H1 & H2 & H3 & H4 & H5)]; [left; assumption|]. intros [G|(a' & t' & G1 & G2 & G3 & G4 & G5)]; [right; left; assumption|].
  right. right. right. exists a, a', t, t'. split; [assumption|]. split; [assumption|]. split; [|split; [assumption|split; [assumption|exact I]]].
  destruct HQ as [A1 A2 A3 A4]. constructor; congruence || assumption.
Qed.
Lemma skip_names l s : named (s_store s) l -> exists r, resolve_names l s = Ok (r, s).
Proof.
  induction l as [|h l IH]; intros Hl; cbn [resolve_names]; [exists []; reflexivity|]. inversion Hl as [|x y (tp & z & Hz) Hl']; subst. destruct (IH Hl') as [r Hr].
  exists (z :: r). unfold bind, res_, resolve. rewrite Hz. cbn [hkind]. rewrite Hr. reflexivity.
Qed.
Lemma skip_memorize F name s : named (s_store s) (s_names s) -> skip (memorize_string F name) s.
Proof.
  intros Hn. unfold skip, memorize_string, bind, get, intern. destruct (10 <=? length (s_names s)).
  - right. exists tt, s. unfold ret. auto using St_refl.
  - destruct (skip_names _ _ Hn) as [r Hr]. rewrite Hr. destruct (existsb (str_eqb name) r).
    + right. exists tt, s. unfold ret. auto using St_refl.
    + destruct (e_nodes F <? _)%N; [left; exact I|]. right. eexists tt, _. split; [reflexivity|]. cbn [s_ms s_fps s_names s_store set_store set_names].
      split; [reflexivity|]. split; [reflexivity|]. split; [|apply St_app]. apply Forall_app. split; [eapply named_St; [exact Hn|apply St_app]|].
      constructor; [|constructor]. exists None, name. rewrite nth_error_app2, Nat.sub_diag by lia. reflexivity.
Qed.
Lemma run_skip w b s : ow w -> bad (run_w w b s) \/ exists b', run_w w b s = Ok (b', s).
Proof. intros Hw. unfold run_w. specialize (Hw b). destruct (w b) as [b' [[]|e| |]]; [right; eauto|left; subst e; exact I|left; exact I|left; exact I]. Qed.
Lemma take_skip b s : bad (take_text b s) \/ exists x, take_text b s = Ok (x, s).
Proof. unfold take_text. destruct (from_utf8 (b_bytes b)) as [x|]; [right; exists x; reflexivity|left; exact I]. Qed.
Lemma render_skip w s : (forall sg, ow (w sg)) -> bad (render w s) \/ exists x, render w s = Ok (x, s).
Proof.
  intros Hw. unfold render. change (bind get ?f s) with (f s s). cbv beta. destruct (run_skip (w (s_store s)) (mkBuf [] 0) s (Hw _)) as [H|[b' H]]; [left; apply bad_bind, H|].
  unfold bind. rewrite H. apply take_skip.
Qed.
Lemma same_skip {A} (m : M A) s : named (s_store s) (s_names s) -> (bad (m s) \/ exists x, m s = Ok (x, s)) -> skip m s.
Proof. intros Hn [H|[x H]]; [left; assumption|right]. exists x, s. auto using St_refl. Qed.
Lemma sim_same {A} (m m' : M A) : (forall s, bad (m s) \/ exists x, m s = Ok (x, s)) -> (forall s, bad (m' s) \/ exists x, m' s = Ok (x, s)) -> sim m m' anyv.
Proof. intros H1 H2 s s' HQ. apply sat_skip; [assumption|apply same_skip; [apply HQ|apply H1]|apply same_skip; [apply HQ|apply H2]]. Qed.

(** ** The parsers *)
Tactic Notation "go" uconstr(L) := eapply sat_bind; [first [apply L; assumption|eapply L; eassumption]|first [eassumption|apply St_refl]|first [eassumption|apply St_refl]|].
Section Parse.
  Variables E E' : env.
  Definition newv (w w' : store) (n n' : node) (t t' : store) (h h' : handle) : Prop :=
    nth_error t h = Some n /\ nth_error t' h' = Some n' /\ length w <= h /\ length w' <= h'.
  Lemma sat_intern n n' s s' : Q s s' -> sat (s_store s) (s_store s') (intern E n) (intern E' n') s s' (newv (s_store s) (s_store s') n n').
  Proof.
    intros [A1 A2 A3 A4]. unfold sat, intern. destruct (e_nodes E <? _)%N; [left; exact I|]. destruct (e_nodes E' <? _)%N; [right; left; exact I|].
    right. right. right. eexists _, _, _, _. split; [reflexivity|]. split; [reflexivity|]. split.
    { constructor; cbn [s_ms s_fps s_names s_store set_store]; try assumption; (eapply named_St; [eassumption|apply St_app]). }
    split; [apply St_app|]. split; [apply St_app|]. cbn [s_store set_store]. unfold newv. rewrite !nth_error_app2, !Nat.sub_diag by lia. auto.
  Qed.
  Lemma sim_intern n n' : tag n = tag n' -> sim (intern E n) (intern E' n') lkv.
  Proof.
    intros Ht s s' HQ. eapply sat_weak; [apply sat_intern; assumption|apply St_refl|apply St_refl|]. intros a a' t t' _ _ _ (H1 & H2 & _). exists n, n'. auto.
  Qed.
  Lemma simi_intern n n' : tag n = tag n' -> simi (intern E n) (intern E' n').
  Proof.
    intros Ht s s' HQ. eapply sat_weak; [apply sat_intern; assumption|apply St_refl|apply St_refl|]. intros a a' t t' _ _ _ (H1 & H2 & H3 & H4).
    split; [exists n, n'; auto|]. split; intros m _ _; assumption.
  Qed.
  Ltac s2 := first
    [ apply sim_next | apply sim_eat_if | apply sim_eat_char | apply sim_eat_str | apply sim_expect_char | apply sim_expect_str | apply sim_first
    | apply sim_special | apply sim_pext | apply sim_number | apply sim_unsigned | apply sim_signed | apply sim_u32 | apply sim_i32
    | apply sim_quals | apply sim_pcv | apply sim_rq | apply sim_cc | apply sim_sc | apply sim_throw | apply sim_fc | apply sim_prim
    | apply sim_translate | apply sim_char | apply sim_wchar | apply sim_adjust | apply sim_offsets
    | apply sim_modify; kps | apply sim_intern; reflexivity | eapply sim_any, sim_intern; reflexivity | s1 ].
  Ltac sc := repeat s2.
  Ltac si := repeat first [ apply simi_intern; reflexivity
    | match goal with
      | |- simi (bind _ _) _ => apply simi_eq; [solve [sc]|intros ?]
      | |- simi (fail _) _ => intros ? ? _; apply sat_fail
      | |- simi panic _ => intros ? ? _; apply sat_panic
      | |- simi (if ?b then _ else _) (if ?b then _ else _) => destruct b
      | |- simi (match ?x with _ => _ end) (match ?x with _ => _ end) => destruct x
      end ].
  Ltac ba := eapply (sim_bind anyv); [|intros ? ? ? ? _].
  Ltac bl := eapply (sim_bind lkv); [|intros ? ? ? ? ?].
  Lemma sim_memorize x x' : sim (memorize_string E x) (memorize_string E' x') anyv.
  Proof. intros s s' HQ. apply sat_skip; [assumption|apply skip_memorize; apply HQ|apply skip_memorize; apply HQ]. Qed.
  Lemma sim_memid h h' : sim (memorize_identifier E h) (memorize_identifier E' h') anyv.
  Proof. unfold memorize_identifier. ba; [|apply sim_memorize]. apply sim_same; intros s; apply render_skip; intros sg; apply ow_output. Qed.
  Lemma sim_simple_string b : sim (demangle_simple_string E b) (demangle_simple_string E' b) eqv.
  Proof. unfold demangle_simple_string. s1; [sc|]. s1; [sc|]. s1; [sc|]. s1; [sc|]. s1; [sc|]. s1; [sc|]. ba; [|sc]. destruct b; [apply sim_memorize|sc]. Qed.
  Lemma simi_simple b : simi (demangle_simple_name E b) (demangle_simple_name E' b).
  Proof. unfold demangle_simple_name. apply simi_eq; [apply sim_simple_string|]. intros x. si. Qed.
  Lemma simi_backref : simi demangle_back_ref_name demangle_back_ref_name.
  Proof.
    unfold demangle_back_ref_name. apply simi_eq; [sc|]. intros o. apply simi_eq; [sc|]. intros c s s' HQ. apply sat_get.
    pose proof (q_n1 _ _ HQ) as A1. pose proof (q_n2 _ _ HQ) as A2. unfold named in *. rewrite Forall_forall in A1, A2.
    destruct (nth_error (s_names s) _) as [h|] eqn:H1; [|left; exact I]. destruct (nth_error (s_names s') _) as [h'|] eqn:H2; [|right; left; exact I]. cbn [ok_or].
    destruct (A1 h (nth_error_In _ _ H1)) as (tp & x & Hx). destruct (A2 h' (nth_error_In _ _ H2)) as (tp' & x' & Hx').
    apply sat_ret; try assumption; try apply St_refl. split; [eexists _, _; split; [exact Hx|]; split; [exact Hx'|reflexivity]|].
    split; intros n Hn Hc; [rewrite Hx in Hn|rewrite Hx' in Hn]; injection Hn as <-; discriminate.
  Qed.
  Lemma simi_anon : simi (demangle_anonymous_namespace_name E) (demangle_anonymous_namespace_name E').
  Proof.
    unfold demangle_anonymous_namespace_name. do 5 (apply simi_eq; [sc|]; intros ?). eapply simi_bind; [apply sim_memorize|]. intros _ _ _ _ _. si.
  Qed.

  Variables K K' : knot.
  Hypothesis HKp : sim (k_parse K) (k_parse K') pv.
  Hypothesis HKt : forall m, sim (k_type K m) (k_type K' m) lkv.
  Hypothesis HKi : forall b, simi (k_tinst K b) (k_tinst K' b).

  Lemma simi_local : simi (demangle_locally_scoped_name_piece E K) (demangle_locally_scoped_name_piece E' K').
  Proof.
    unfold demangle_locally_scoped_name_piece. apply simi_eq; [sc|]. intros _. apply simi_eq; [sc|]. intros [number neg]. destruct neg; [si|].
    apply simi_eq; [sc|]. intros _. eapply simi_bind; [apply HKp|]. intros h h' _ _ _. eapply simi_bind.
    - apply sim_same; intros s; apply render_skip; intros sg; repeat apply ow_seq; try apply ow_str; apply ow_output.
    - intros x x' _ _ _. si.
  Qed.
  Lemma simi_piece : simi (demangle_name_scope_piece E K) (demangle_name_scope_piece E' K').
  Proof.
    unfold demangle_name_scope_piece. apply simi_eq; [sc|]. intros s. destruct (first_is _ _); [apply simi_backref|]. destruct (starts_with _ _); [apply HKi|].
    destruct (starts_with _ _); [apply simi_anon|]. destruct (local_scope_pattern s) as [[]| | |]; [apply simi_local|apply simi_simple|si|si|si].
  Qed.
  Definition chainv (id id' : handle) (t t' : store) (r r' : list handle) : Prop :=
    lk t t' id id' /\ exists l l', r = l ++ [id] /\ r' = l' ++ [id'] /\ Forall2 (lk t t') l l'.
  Lemma sat_scope fuel : forall acc acc' id id' s s', Q s s' -> chainv id id' (s_store s) (s_store s') acc acc' ->
    sat (s_store s) (s_store s') (scope_loop E K fuel acc) (scope_loop E' K' fuel acc') s s' (chainv id id').
  Proof.
    induction fuel as [|fuel IH]; intros acc acc' id id' s s' HQ HV; cbn [scope_loop]; [apply sat_fuel|].
    assert (Hc : forall t t', St (s_store s) t -> St (s_store s') t' -> chainv id id' t t' acc acc').
    { intros t t' S1 S2. destruct HV as (H1 & l & l' & H2 & H3 & H4). split; [eapply lk_St; eassumption|]. exists l, l'. repeat split; try assumption. eapply lks_St; eassumption. }
    go (sim_eat_char _). intros d ? t t' Q1 S1 S1' _ _ <-. destruct d; [apply sat_ret; auto|].
    go sim_text. intros x ? t1 t1' Q2 S2 S2' U2 U2' <-. destruct (is_empty x); [apply sat_fail|].
    go simi_piece. intros h h' t2 t2' Q3 S3 S3' U3 U3' [Hl _]. eapply sat_weak; [apply (IH _ _ id id')|assumption|assumption|]; [assumption| |auto].
    destruct (Hc _ _ U3 U3') as (H1 & l & l' & -> & -> & H4). split; [assumption|]. exists (h :: l), (h' :: l'). repeat split. constructor; assumption.
  Qed.
  Lemma sat_chain id id' s s' : Q s s' -> lk (s_store s) (s_store s') id id' ->
    sat (s_store s) (s_store s') (demangle_name_scope_chain E K id) (demangle_name_scope_chain E' K' id') s s' (fun t t' q q' => qual t t' q q' id id').
  Proof.
    intros HQ Hl. unfold demangle_name_scope_chain. go sim_text. intros x ? t t' Q1 S1 S1' U1 U1' <-.
    eapply sat_bind; [apply (sat_scope _ _ _ id id')|assumption|assumption|]; [assumption| |].
    { split; [eapply lk_St; eassumption|]. exists [], []. repeat split. constructor. }
    intros r r' t1 t1' Q2 S2 S2' U2 U2' (H1 & l & l' & -> & -> & H4). go (sat_intern _ _). intros c c' t2 t2' Q3 S3 S3' U3 U3' (N1 & N2 & _).
    eapply sat_weak; [apply sat_intern; assumption|assumption|assumption|]. intros q q' t3 t3' Q4 S4 S4' (M1 & M2 & _).
    pose proof (St_trans _ _ _ S3 S4) as R. pose proof (St_trans _ _ _ S3' S4') as R'.
    split; [eapply lk_St; eassumption|]. exists c, c', l, l'. split; [exact M1|]. split; [eapply fixed_St; [exact S4|exact N1|exact I]|]. split; [exact M2|].
    split; [eapply fixed_St; [exact S4'|exact N2|exact I]|]. eapply lks_St; eassumption.
  Qed.
  Lemma sim_chain id id' sg sg' : lk sg sg' id id' -> forall s s', Q s s' -> St sg (s_store s) -> St sg' (s_store s') ->
    sat (s_store s) (s_store s') (demangle_name_scope_chain E K id) (demangle_name_scope_chain E' K' id') s s' (fun t t' q q' => qual t t' q q' id id').
  Proof. intros Hl s s' HQ S1 S2. apply sat_chain; [assumption|]. eapply lk_St; eassumption. Qed.
  Lemma simi_code_group g : simi (demangle_function_identifier_code_group E g) (demangle_function_identifier_code_group E' g).
  Proof.
    unfold demangle_function_identifier_code_group. apply simi_eq; [sc|]. intros c. cbv zeta. destruct g; [si|si|].
    destruct (c =? ch "K")%N; [|si]. apply simi_eq; [apply sim_simple_string|]. intros x. si.
  Qed.
  Lemma simi_code : simi (demangle_function_identifier_code E) (demangle_function_identifier_code E').
  Proof.
    unfold demangle_function_identifier_code. apply simi_eq; [sc|]. intros _. apply simi_eq; [sc|]. intros []; [apply simi_code_group|].
    apply simi_eq; [sc|]. intros []; apply simi_code_group.
  Qed.
  Lemma simi_utn b : simi (demangle_unqualified_type_name E K b) (demangle_unqualified_type_name E' K' b).
  Proof.
    unfold demangle_unqualified_type_name. apply simi_eq; [sc|]. intros s. destruct (first_is _ _); [apply simi_backref|].
    destruct (starts_with _ _); [apply HKi|apply simi_simple].
  Qed.
  Lemma simi_usn b : simi (demangle_unqualified_symbol_name E K b) (demangle_unqualified_symbol_name E' K' b).
  Proof.
    unfold demangle_unqualified_symbol_name. apply simi_eq; [sc|]. intros s. destruct (first_is _ _); [apply simi_backref|].
    destruct (starts_with _ _); [apply HKi|]. destruct (starts_with _ _); [apply simi_code|apply simi_simple].
  Qed.
  Lemma sim_fqt : sim (demangle_fully_qualified_type_name E K) (demangle_fully_qualified_type_name E' K') anyv.
  Proof.
    intros s s' HQ. unfold demangle_fully_qualified_type_name. go (simi_utn true). intros a a' t t' Q1 S1 S1' U1 U1' [Hl _].
    eapply sat_weak; [apply sat_chain; assumption|assumption|assumption|]. intros; exact I.
  Qed.
  Definition fqv (w w' t t' : store) (q q' : handle) : Prop := exists id id', qualw t t' q q' id id' /\ idv w w' t t' id id'.
  Lemma sat_fqs s s' : Q s s' ->
    sat (s_store s) (s_store s') (demangle_fully_qualified_symbol_name E K) (demangle_fully_qualified_symbol_name E' K') s s' (fqv (s_store s) (s_store s')).
  Proof.
    intros HQ. unfold demangle_fully_qualified_symbol_name. go (simi_usn NBB_Simple). intros id id' t t' Q1 S1 S1' U1 U1' Hid.
    eapply sat_bind; [apply (sat_chain id id'); [assumption|apply Hid]|assumption|assumption|]. intros q q' t1 t1' Q2 S2 S2' U2 U2' Hq.
    pose proof (idv_St _ _ _ _ _ _ _ _ Hid S2 S2') as Hid1.
    apply sat_res. intros i i' N1 N2 _ _. pose proof (lk_nth _ _ _ _ _ _ (proj1 Hid1) N1 N2) as Ht.
    cbv beta in Hq.
    assert (Hw : forall u u', St (s_store t1) u -> St (s_store t1') u' -> fqv (s_store s) (s_store s') u u' q q').
    { intros u u' R R'. exists id, id'. split; [eapply qualw_St; [apply qual_w; eassumption|assumption|assumption]|eapply idv_St; eassumption]. }
    tags i i' Ht; try (apply sat_ret; auto using St_refl).
    destruct Hq as (Hl & c & c' & l & l' & H1 & H2 & H3 & H4 & H5). apply sat_res. intros n n' M1 M2 _ _. rewrite H1 in M1. rewrite H3 in M2. injection M1 as <-. injection M2 as <-.
    apply sat_res. intros n n' M1 M2 _ _. rewrite H2 in M1. rewrite H4 in M2. injection M1 as <-. injection M2 as <-.
    assert (Hf : Forall2 (lk (s_store t1) (s_store t1')) (l ++ [id]) (l' ++ [id'])) by (apply Forall2_app; auto).
    assert (Hlen : length (l' ++ [id']) = length (l ++ [id])) by (clear -Hf; induction Hf; cbn [length]; congruence).
    rewrite Hlen. eapply (sat_bind anyv).
    - destruct (length (l ++ [id]) <? 2); [apply sat_fail|]. pose proof (f2_nth _ _ _ (length (l ++ [id]) - 2) Hf) as Hn.
      destruct (nth_error (l ++ [id]) _) as [h|], (nth_error (l' ++ [id']) _) as [h'|]; try contradiction; [|apply sat_fail].
      apply sat_res. intros x x' X1 X2 _ _. rewrite <- (tag_ident _ _ (lk_nth _ _ _ _ _ _ Hn X1 X2)). destruct (is_ident x); [|apply sat_fail].
      apply sat_ret; auto using St_refl. exact I.
    - assumption.
    - assumption.
    - intros k k' t2 t2' Q3 S3 S3' U3 U3' _. eapply sat_bind; [apply sim_modify; [apply kp_class|apply kp_class|assumption]|assumption|assumption|].
      intros [] [] t3 t3' Q4 S4 S4' U4 U4' _. apply sat_ret; try assumption. apply Hw; eapply St_trans; eassumption.
  Qed.
  Lemma sim_custom : sim (demangle_custom_type E K) (demangle_custom_type E' K') lkv.
  Proof. unfold demangle_custom_type. s1; [sc|]. bl; [apply simi_lk, simi_utn|]. s1; [sc|]. s1; [sc|]. sc. Qed.
  Lemma sim_class : sim (demangle_class_type E K) (demangle_class_type E' K') lkv.
  Proof. unfold demangle_class_type. s1; [sc|]. s1; [sc|]. ba; [apply sim_fqt|]. sc. Qed.
  Lemma Q_fps s s' h h' : Q s s' -> Q (if length (s_fps s) <? 10 then set_fps (s_fps s ++ [h]) s else s) (if length (s_fps s') <? 10 then set_fps (s_fps s' ++ [h']) s' else s').
  Proof. intros HQ. pose proof HQ as [A1 A2 A3 A4]. rewrite A2. destruct (_ <? 10); [|assumption]. constructor; cbn [s_ms s_fps s_names s_store set_fps]; try assumption. rewrite !app_length. cbn [length]. congruence. Qed.
  Lemma fps_store s h : s_store (if length (s_fps s) <? 10 then set_fps (s_fps s ++ [h]) s else s) = s_store s.
  Proof. destruct (_ <? 10); reflexivity. Qed.
  Lemma sim_params fuel : forall acc acc', sim (params_loop K fuel acc) (params_loop K' fuel acc') anyv.
  Proof.
    induction fuel as [|fuel IH]; intros acc acc'; cbn [params_loop]; [sc|]. s1; [sc|]. s1; [sc|]. s1; [sc|]. s1; [sc|]. s1.
    - intros s s' HQ. apply sat_get. assert (Hn : forall i, is_some (nth_error (s_fps s) i) = is_some (nth_error (s_fps s') i)).
      { intros i. destruct (nth_error (s_fps s) i) eqn:H1, (nth_error (s_fps s') i) eqn:H2; try reflexivity; exfalso.
        - apply nth_error_None in H2. rewrite (q_fps _ _ HQ) in H2. assert (i < length (s_fps s)) by (apply nth_error_Some; congruence). lia.
        - apply nth_error_None in H1. rewrite <- (q_fps _ _ HQ) in H1. assert (i < length (s_fps s')) by (apply nth_error_Some; congruence). lia. }
      specialize (Hn (N.to_nat (n - ch "0"))). destruct (nth_error (s_fps s) _), (nth_error (s_fps s') _); try discriminate Hn; cbn [ok_or]; [|apply sat_fail].
      exact (IH _ _ s s' HQ).
    - s1; [sc|]. bl; [apply HKt|]. s1; [sc|]. s1; [sc|]. ba; [|apply IH]. s1; [sc|]. s1; [sc|].
      intros s s' HQ. right. right. right. eexists tt, tt, _, _. split; [reflexivity|]. split; [reflexivity|]. split; [apply Q_fps; assumption|].
      rewrite !fps_store. split; [apply St_refl|]. split; [apply St_refl|exact I].
  Qed.
  Lemma sim_plist : sim (demangle_function_parameter_list E K) (demangle_function_parameter_list E' K') anyv.
  Proof. unfold demangle_function_parameter_list. s1; [sc|]. s1; [sc|]. s1; [sc|]. ba; [apply sim_params|]. ba; [sc|]. sc. Qed.
  Lemma sim_function b : sim (demangle_function_type E K b) (demangle_function_type E' K' b) lkv.
  Proof.
    unfold demangle_function_type. s1; [sc|]. s1. s1; [sc|]. s1; [sc|]. eapply (sim_bind (fun _ _ o o' => is_some o = is_some o')).
    { s1; [apply sim_ret; reflexivity|]. bl; [apply HKt|]. apply sim_ret. reflexivity. }
    intros rt rt' _ _ Hr. ba; [apply sim_plist|]. match goal with |- sim (let '(_, _) := ?x in _) (let '(_, _) := ?y in _) _ => destruct x, y end. s1; [sc|].
    apply sim_intern. cbn [tag fs_ret]. rewrite Hr. reflexivity.
  Qed.
  Lemma sim_pointer : sim (demangle_pointer_type E K) (demangle_pointer_type E' K') lkv.
  Proof.
    unfold demangle_pointer_type. s1; [sc|]. s1. s1; [sc|]. ba.
    - s1; [bl; [apply sim_function|sc]|]. s1; [sc|]. bl; [apply HKt|]. sc.
    - match goal with |- sim (let '(_, _) := ?x in _) (let '(_, _) := ?y in _) _ => destruct x, y end. sc.
  Qed.
  Lemma sim_member : sim (demangle_member_pointer_type E K) (demangle_member_pointer_type E' K') lkv.
  Proof.
    unfold demangle_member_pointer_type. s1; [sc|]. s1. s1; [|sc|sc|sc..]. all: try solve [sc]. s1; [sc|]. s1; [sc|]. s1.
    - ba; [apply sim_fqt|]. bl; [apply sim_function|]. sc.
    - s1; [sc|]. s1. s1; [|sc]. ba; [apply sim_fqt|]. bl; [apply HKt|]. ba; [sc|]. sc.
  Qed.
  Lemma sim_dims fuel : forall rank acc acc', sim (dims_loop E fuel rank acc) (dims_loop E' fuel rank acc') anyv.
  Proof.
    induction fuel as [|fuel IH]; intros rank acc acc'; cbn [dims_loop]; (s1; [sc|]); [sc|]. s1; [sc|]. s1. s1; [sc|]. ba; [sc|]. apply IH.
  Qed.
  Lemma sim_array : sim (demangle_array_type E K) (demangle_array_type E' K') lkv.
  Proof.
    unfold demangle_array_type. s1; [sc|]. s1; [sc|]. s1. s1; [sc|]. s1; [sc|]. ba; [apply sim_dims|]. ba; [sc|]. s1; [sc|]. s1; [sc|]. bl; [apply HKt|]. sc.
  Qed.
  Lemma sim_type m : sim (demangle_type E K m) (demangle_type E' K' m) lkv.
  Proof.
    unfold demangle_type. s1; [sc|]. s1; [sc|]. s1; [sc|]. intros s s' HQ. eapply (sat_bind lkv); [|apply St_refl|apply St_refl|].
    - revert s s' HQ. change (sim (if is_tag_type a0 then demangle_class_type E K else
        if is_pointer_type a0 then match is_member_pointer a0 with Some true => demangle_member_pointer_type E K | Some false => demangle_pointer_type E K | None => fail InvalidType end
        else if is_array_type a0 then demangle_array_type E K
        else if is_function_type a0 then a8 <- eat_str (L "$$A8@@") ;; if a8 then demangle_function_type E K true else a6 <- eat_str (L "$$A6") ;; if a6 then demangle_function_type E K false else fail InvalidType
        else if is_custom_type a0 then demangle_custom_type E K else demangle_primitive_type E)
        (if is_tag_type a0 then demangle_class_type E' K' else
        if is_pointer_type a0 then match is_member_pointer a0 with Some true => demangle_member_pointer_type E' K' | Some false => demangle_pointer_type E' K' | None => fail InvalidType end
        else if is_array_type a0 then demangle_array_type E' K'
        else if is_function_type a0 then a8 <- eat_str (L "$$A8@@") ;; if a8 then demangle_function_type E' K' true else a6 <- eat_str (L "$$A6") ;; if a6 then demangle_function_type E' K' false else fail InvalidType
        else if is_custom_type a0 then demangle_custom_type E' K' else demangle_primitive_type E') lkv).
      s1; [apply sim_class|]. s1.
      { destruct (is_member_pointer a0) as [[]|]; [apply sim_member|apply sim_pointer|sc]. }
      s1; [apply sim_array|]. s1; [s1; [sc|]; s1; [apply sim_function|]; s1; [sc|]; s1; [apply sim_function|sc]|].
      s1; [apply sim_custom|]. unfold demangle_primitive_type. sc.
    - intros h h' t t' Q1 S1 S1' _ _ Hl. eapply sat_bind; [apply sim_modify; [apply kp_append|apply kp_append|assumption]|assumption|assumption|].
      intros [] [] t1 t1' Q2 S2 S2' U2 U2' _. apply sat_ret; try assumption. eapply lk_St; eassumption.
  Qed.

  (** *** Symbols *)
  Definition vfv (t t' : store) (h h' : handle) : Prop :=
    exists n n', nth_error t h = Some n /\ nth_error t' h' = Some n' /\ tag n = tag n' /\ vf n = true.
  Definition fnv (t t' : store) (h h' : handle) : Prop :=
    exists nm nm' sig sig', nth_error t h = Some (NFunc nm sig) /\ nth_error t' h' = Some (NFunc nm' sig') /\ lk t t' sig sig'.
  Lemma sat_end {A} (V : store -> store -> A -> A -> Prop) u u' (m m' : M A) s s' : sat (s_store s) (s_store s') m m' s s' V -> St u (s_store s) -> St u' (s_store s') -> sat u u' m m' s s' V.
  Proof. intros H U U'. eapply sat_weak; [exact H|assumption|assumption|]. auto. Qed.
  Lemma sim_variable c : sim (demangle_variable_encoding E K c) (demangle_variable_encoding E' K' c) vfv.
  Proof.
    intros s s' HQ. unfold demangle_variable_encoding. go (HKt QDrop). intros ty ty' t t' Q1 S1 S1' U1 U1' Hl. apply sat_res. intros n n' N1 N2 _ _.
    pose proof (lk_nth _ _ _ _ _ _ Hl N1 N2) as Ht.
    assert (Hend : forall r r', Q r r' -> St (s_store s) (s_store r) -> St (s_store s') (s_store r') ->
      sat (s_store s) (s_store s') (intern E (NVar None (Some c) (Some ty))) (intern E' (NVar None (Some c) (Some ty'))) r r' vfv).
    { intros r r' QR R R'. eapply sat_weak; [apply sat_intern; assumption|assumption|assumption|]. intros h h' x x' _ _ _ (M1 & M2 & _). eexists _, _. split; [exact M1|]. split; [exact M2|]. auto. }
    eapply (sat_bind anyv); [|assumption|assumption|intros [] [] r r' QR R R' R1 R1' _; apply Hend; assumption].
    tags n n' Ht; try solve [revert t t' Q1 S1 S1' U1 U1' Hl N1 N2; intros t t' Q1 _ _ _ _ _ _ _; revert t t' Q1;
      match goal with |- forall t t', Q t t' -> sat _ _ ?m ?m' t t' ?V => change (sim m m' V) end; s1; [sc|]; s1; sc].
    go sim_pext. intros qq ? t1 t1' Q2 S2 S2' U2 U2' <-.
    eapply sat_bind; [apply sim_modify; [apply kp_append|apply kp_append|assumption]|assumption|assumption|]. intros [] [] t2 t2' Q3 S3 S3' U3 U3' _.
    pose proof (lk_St _ _ _ _ _ _ Hl (St_trans _ _ _ S2 S3) (St_trans _ _ _ S2' S3')) as Hl2. apply sat_res. intros n n' M1 M2 _ _.
    pose proof (lk_nth _ _ _ _ _ _ Hl2 M1 M2) as Ht2. tags n n' Ht2; try apply sat_panic. go sim_quals. intros p ? t3 t3' Q4 S4 S4' U4 U4' <-. destruct p as [extra b].
    cbn [tag] in Ht2. eapply (sat_bind anyv).
    - match goal with |- sat _ _ (match ?x with _ => _ end) (match ?y with _ => _ end) _ _ _ => destruct x, y end; try discriminate Ht2; [|apply sat_ret; auto using St_refl; exact I].
      revert t3 t3' Q4 S4 S4' U4 U4'. intros t3 t3' Q4 _ _ _ _. revert t3 t3' Q4. match goal with |- forall t t', Q t t' -> sat _ _ ?m ?m' t t' ?V => change (sim m m' V) end. ba; [apply sim_fqt|]. sc.
    - assumption.
    - assumption.
    - intros [] [] t4 t4' Q5 S5 S5' U5 U5' _. apply sat_end; try assumption. apply sim_modify; [apply kp_append|apply kp_append|assumption].
  Qed.
  Lemma sim_function_encoding : sim (demangle_function_encoding E K) (demangle_function_encoding E' K') fnv.
  Proof.
    unfold demangle_function_encoding. s1; [sc|]. s1; [sc|]. s1; [sc|]. s1; [sc|]. cbv zeta. s1; [sc|].
    intros s s' HQ. eapply (sat_bind lkv); [|apply St_refl|apply St_refl|].
    { destruct (contains _ FC_NoParameterList); [apply sim_intern; [reflexivity|assumption]|apply sim_function; assumption]. }
    intros f f' t t' Q1 S1 S1' _ _ Hl. eapply (sat_bind lkv); [|assumption|assumption|].
    { destruct a2 as [ta|]; [|apply sat_ret; auto using St_refl]. apply sat_res. intros n n' N1 N2 K1 K2. pose proof (lk_nth _ _ _ _ _ _ Hl N1 N2) as Ht.
      tags n n' Ht; try discriminate K1. apply sim_intern; [|assumption]. cbn [tag] in *. congruence. }
    intros g g' t1 t1' Q2 S2 S2' U2 U2' Hg. eapply sat_bind; [apply sim_modify; [apply kp_fc|apply kp_fc|assumption]|assumption|assumption|].
    intros [] [] t2 t2' Q3 S3 S3' U3 U3' _. eapply sat_weak; [apply sat_intern; assumption|assumption|assumption|]. intros h h' r r' _ R R' (M1 & M2 & _).
    exists None, None, g, g'. split; [exact M1|]. split; [exact M2|]. eapply lk_St; [exact Hg|eapply St_trans; eassumption|eapply St_trans; eassumption].
  Qed.
  Lemma sig_ret n n' : tag n = tag n' -> is_some (sig_return n) = is_some (sig_return n').
  Proof. intros H. tags n n' H; try reflexivity; cbn [tag sig_return] in *; congruence. Qed.
  Lemma sat_encoded w w' q q' id id' s s' : Q s s' -> qualw (s_store s) (s_store s') q q' id id' -> idv w w' (s_store s) (s_store s') id id' ->
    St w (s_store s) -> St w' (s_store s') ->
    sat w w' (demangle_encoded_symbol E K q) (demangle_encoded_symbol E' K' q') s s' (fun t t' h h' => vfv t t' h h' /\ qualw t t' q q' id id').
  Proof.
    intros HQ Hq Hid U U'. unfold demangle_encoded_symbol. go sim_text. intros x ? t t' Q1 S1 S1' U1 U1' <-.
    go (sim_ok_or _ _). intros c ? t1 t1' Q2 S2 S2' U2 U2' <-.
    pose proof (qualw_St _ _ _ _ _ _ _ _ Hq (St_trans _ _ _ S1 S2) (St_trans _ _ _ S1' S2')) as Hq1.
    pose proof (idv_St _ _ _ _ _ _ _ _ Hid (St_trans _ _ _ S1 S2) (St_trans _ _ _ S1' S2')) as Hid1.
    destruct (one_of (L "01234") c).
    - go sim_sc. intros k ? t2 t2' Q3 S3 S3' U3 U3' <-. eapply sat_weak; [apply sim_variable; assumption|assumption|assumption|].
      intros h h' r r' _ R R' Hv. split; [exact Hv|]. eapply qualw_St; [exact Hq1|eapply St_trans; eassumption|eapply St_trans; eassumption].
    - go sim_function_encoding. intros f f' t2 t2' Q3 S3 S3' U3 U3' Hf. pose proof Hf as (nm & nm' & sig & sig' & F1 & F2 & Hs).
      apply sat_res. intros n n' N1 N2 _ _. rewrite F1 in N1. rewrite F2 in N2. injection N1 as <-. injection N2 as <-.
      apply sat_res. intros sn sn' N1 N2 _ _. pose proof (sig_ret _ _ (lk_nth _ _ _ _ _ _ Hs N1 N2)) as Hr.
      pose proof (qualw_St _ _ _ _ _ _ _ _ Hq1 S3 S3') as Hq2. pose proof (idv_St _ _ _ _ _ _ _ _ Hid1 S3 S3') as Hid2.
      eapply sat_bind; [apply (sat_uid _ _ id id'); assumption|assumption|assumption|]. intros o o' t3 t3' Q4 S4 S4' U4 U4' (T3 & T3' & Ho).
      pose proof (qualw_St _ _ _ _ _ _ _ _ Hq2 S4 S4') as Hq3. pose proof (idv_St _ _ _ _ _ _ _ _ Hid2 S4 S4') as Hid3.
      destruct Ho as [[-> ->]|[-> ->]]; cbn [ok_or]; [|apply sat_fail].
      change (sat w w' (modify KIdent id (set_target (sig_return sn)) ;;; ret f) (modify KIdent id' (set_target (sig_return sn')) ;;; ret f') t3 t3'
        (fun t t' h h' => vfv t t' h h' /\ qualw t t' q q' id id')).
      assert (Hkt : forall v r y i, fr v y i -> forall n, nth_error y i = Some n -> hkind KIdent n = true ->
        keep n (set_target r n) \/ (conv n = true /\ conv (set_target r n) = true /\ length v <= i)).
      { intros v r y i Hfr n Hn Hk. destruct (conv n) eqn:Hc; [right|left].
        - split; [reflexivity|]. split; [destruct n; try discriminate; reflexivity|]. exact (Hfr n Hn Hc).
        - destruct n; try discriminate Hc; apply keep_refl. }
      eapply sat_bind0; [apply sat_modify_at; [assumption|assumption|assumption|eapply Hkt, Hid3|eapply Hkt, Hid3]|].
      intros [] [] t4 t4' Q5 U5 U5' (n & n' & M1 & M2 & K1 & K2 & T1 & T2). apply sat_ret; try assumption. rewrite T1, T2.
      assert (Hoth : forall (y : store) i m j r, nth_error y i = Some m -> hkind KIdent m = true -> nth_error y j = Some r -> is_ident r = false ->
        forall z, nth_error (upd y i z) j = Some r).
      { intros y i m j r Hi Hm Hj Hr' z. rewrite upd_other; [assumption|]. intros ->. assert (r = m) as -> by congruence. cbn [hkind] in Hm. congruence. }
      assert (F1' : nth_error (s_store t3) f = Some (NFunc nm sig) \/ exists nm1 sig1, nth_error (s_store t3) f = Some (NFunc nm1 sig1)).
      { destruct (proj2 S4 _ _ F1) as (m & G1 & [G2 _]). destruct m; try discriminate G2. eauto. }
      assert (F2' : exists nm1 sig1, nth_error (s_store t3') f' = Some (NFunc nm1 sig1)).
      { destruct (proj2 S4' _ _ F2) as (m & G1 & [G2 _]). destruct m; try discriminate G2. eauto. }
      assert (F1'' : exists nm1 sig1, nth_error (s_store t3) f = Some (NFunc nm1 sig1)) by (destruct F1'; eauto).
      destruct F1'' as (nm1 & sig1 & G1), F2' as (nm2 & sig2 & G2). split.
      + exists (NFunc nm1 sig1), (NFunc nm2 sig2). split; [eapply Hoth; try eassumption; reflexivity|]. split; [eapply Hoth; try eassumption; reflexivity|]. auto.
      + destruct Hq3 as (Hl & c0 & c0' & l & l' & H1 & H2 & H3 & H4). pose proof (lk_nth _ _ _ _ _ _ Hl M1 M2) as Ht. split.
        * exists (set_target (sig_return sn) n), (set_target (sig_return sn') n'). split; [eapply upd_same; eassumption|]. split; [eapply upd_same; eassumption|].
          tags n n' Ht; cbn [set_target tag] in *; congruence.
        * exists c0, c0', l, l'. repeat split; eapply Hoth; try eassumption; reflexivity.
  Qed.
  Lemma set_name_vf n q : vf n = true -> sym_name (set_sym_name q n) = Some q.
  Proof. destruct n; try discriminate; reflexivity. Qed.
  Lemma tag_vf n n' : tag n = tag n' -> vf n = vf n'.
  Proof. intros H. tags n n' H; reflexivity. Qed.
  Definition dv (t t' : store) (h h' : handle) : Prop :=
    exists n n' q q' id id', nth_error t h = Some n /\ nth_error t' h' = Some n' /\ tag n = tag n' /\ vf n = true /\
      sym_name n = Some q /\ sym_name n' = Some q' /\ qualw t t' q q' id id'.
  Lemma sim_declarator : sim (demangle_declarator E K) (demangle_declarator E' K') dv.
  Proof.
    intros s s' HQ. unfold demangle_declarator. eapply sat_bind; [apply sat_fqs; assumption|apply St_refl|apply St_refl|].
    intros q q' t t' Q1 S1 S1' _ _ (id & id' & Hq & Hid). eapply sat_bind0; [apply (sat_encoded _ _ _ _ id id'); assumption|].
    intros h h' t1 t1' Q2 U2 U2' [(n & n' & N1 & N2 & Ht & Hv) Hq1]. eapply sat_bind; [apply sat_modify; [apply kp_sym|apply kp_sym|assumption]|assumption|assumption|].
    intros [] [] t2 t2' Q3 S3 S3' U3 U3' (m & m' & M1 & M2 & _ & _ & T1 & T2). assert (m = n) as -> by congruence. assert (m' = n') as -> by congruence.
    pose proof (qualw_St _ _ _ _ _ _ _ _ Hq1 S3 S3') as Hq2.
    eapply sat_bind; [apply (sat_uid _ _ id id'); assumption|assumption|assumption|]. intros o o' t3 t3' Q4 S4 S4' U4 U4' (T3 & T3' & Ho).
    assert (Hd : dv (s_store t2) (s_store t2') h h').
    { exists (set_sym_name q n), (set_sym_name q' n'), q, q', id, id'. split; [rewrite T1; eapply upd_same; eassumption|]. split; [rewrite T2; eapply upd_same; eassumption|].
      split; [destruct (kp_sym q n) as [-> _]; destruct (kp_sym q' n') as [-> _]; assumption|].
      split; [destruct n; try discriminate Hv; reflexivity|]. split; [apply set_name_vf; assumption|]. split; [apply set_name_vf; rewrite <- (tag_vf _ _ Ht); assumption|assumption]. }
    destruct Ho as [[-> ->]|[-> ->]]; cbn [ok_or]; [|apply sat_fail].
    assert (Heq : forall {B} (f f' : handle -> M B) W, sat (s_store s) (s_store s') (f id) (f' id') t3 t3' W -> sat (s_store s) (s_store s') (bind (ret id) f) (bind (ret id') f') t3 t3' W) by (intros B f f' W H; exact H).
    apply Heq. apply sat_res. intros i i' I1 I2 _ _. pose proof (qualw_St _ _ _ _ _ _ _ _ Hq2 S4 S4') as [Hl _]. pose proof (lk_nth _ _ _ _ _ _ Hl I1 I2) as Hti.
    assert (Hret : sat (s_store s) (s_store s') (ret h) (ret h') t3 t3' dv).
    { apply sat_ret; try assumption. rewrite T3, T3'. exact Hd. }
    tags i i' Hti; try exact Hret. cbn [tag] in Hti. destruct target, target0; try discriminate Hti; [exact Hret|apply sat_fail].
  Qed.

  (** *** Templates *)
  Lemma sim_tsymbol : sim (template_symbol E K) (template_symbol E' K') anyv.
  Proof.
    unfold template_symbol. s1; [sc|]. s1; [|sc]. intros s s' HQ. go HKp. intros h h' t t' Q1 S1 S1' _ _ (n & n' & N1 & N2 & Ht & Hn).
    apply sat_res. intros m m' M1 M2 _ _. assert (m = n) as -> by congruence. assert (m' = n') as -> by congruence.
    destruct (sym_name n) as [q|], (sym_name n') as [q'|]; try contradiction; [|apply sat_fail]. destruct Hn as (id & id' & Hq).
    eapply sat_bind; [apply (sat_uid _ _ id id'); assumption|assumption|assumption|]. intros o o' t3 t3' Q4 S4 S4' U4 U4' (_ & _ & Ho).
    destruct Ho as [[-> ->]|[-> ->]]; cbn [ok_or]; [|apply sat_fail].
    assert (Heq : forall {B} (f f' : handle -> M B) W, sat (s_store s) (s_store s') (f id) (f' id') t3 t3' W -> sat (s_store s) (s_store s') (bind (ret id) f) (bind (ret id') f') t3 t3' W) by (intros B f f' W H; exact H).
    apply Heq. apply sat_end; try assumption. revert t3 t3' Q4 S4 S4' U4 U4' Heq. intros t3 t3' Q4 _ _ _ _ _. revert t3 t3' Q4.
    match goal with |- forall t t', Q t t' -> sat _ _ ?m ?m' t t' ?V => change (sim m m' V) end. ba; [apply sim_memid|]. sc.
  Qed.
  Lemma sim_targ : sim (template_arg E K) (template_arg E' K') anyv.
  Proof.
    unfold template_arg. s1; [sc|]. ba; [s1; [bl; [apply HKt|]; sc|sc]|]. s1; [sc|]. s1; [apply sim_fqt|].
    s1; [sc|]. s1; [eapply sim_any, HKt|]. s1; [sc|]. s1; [eapply sim_any, HKt|]. s1; [sc|]. s1.
    - ba; [apply sim_tsymbol|]. s1; [|sc]. sc.
    - s1; [sc|]. s1.
      + s1; [sc|]. eapply (sim_bind pv); [apply HKp|]. intros. sc.
      + s1; [sc|]. s1; [sc|]. s1; [sc|]. s1; [sc|]. eapply sim_any, HKt.
  Qed.
  Lemma sim_targs fuel : forall acc acc', sim (targs_loop E K fuel acc) (targs_loop E' K' fuel acc') anyv.
  Proof.
    induction fuel as [|fuel IH]; intros acc acc'; cbn [targs_loop]; [sc|]. s1; [sc|]. s1; [sc|]. s1; [sc|]. s1; [apply IH|]. s1; [sc|]. s1; [sc|].
    ba; [apply sim_targ|]. apply IH.
  Qed.
  Lemma sim_tparams : sim (demangle_template_parameter_list E K) (demangle_template_parameter_list E' K') anyv.
  Proof. unfold demangle_template_parameter_list. s1; [sc|]. ba; [apply sim_targs|]. sc. Qed.
  Lemma sat_set {u u'} (g g' : st -> st) s s' : Q (g s) (g' s') -> St u (s_store (g s)) -> St u' (s_store (g' s')) ->
    sat u u' (fun s => Ok (tt, g s)) (fun s => Ok (tt, g' s)) s s' anyv.
  Proof. intros H1 H2 H3. right. right. right. exists tt, tt, (g s), (g' s'). repeat (split; [first [reflexivity|assumption]|]). exact I. Qed.
  Lemma simi_tinst b : simi (demangle_template_instantiation_name E K b) (demangle_template_instantiation_name E' K' b).
  Proof.
    unfold demangle_template_instantiation_name. apply simi_eq; [sc|]. intros _ s s' HQ. apply sat_get.
    eapply sat_bind; [apply (sat_set (fun s => set_names [] (set_fps [] s)) (fun s => set_names [] (set_fps [] s)))|apply St_refl|apply St_refl|].
    { constructor; cbn; [apply HQ|reflexivity|constructor|constructor]. }
    { apply St_refl. } { apply St_refl. }
    intros [] [] t t' Q1 S1 S1' _ _ _. go (simi_usn NBB_Simple). intros id id' t1 t1' Q2 S2 S2' U2 U2' Hid.
    go sim_tparams. intros tp tp' t2 t2' Q3 S3 S3' U3 U3' _.
    eapply sat_bind; [apply sim_modify; [apply kp_tp|apply kp_tp|assumption]|assumption|assumption|]. intros [] [] t3 t3' Q4 S4 S4' U4 U4' _.
    eapply sat_bind; [apply (sat_set (fun x => set_names (s_names s) (set_fps (s_fps s) x)) (fun x => set_names (s_names s') (set_fps (s_fps s') x)))|assumption|assumption|].
    { destruct HQ as [A1 A2 A3 A4]. constructor; cbn [s_ms s_fps s_names s_store set_fps set_names]; [apply Q4|assumption|eapply named_St; eassumption|eapply named_St; eassumption]. }
    { apply St_refl. } { apply St_refl. }
    intros [] [] t4 t4' Q5 S5 S5' U5 U5' _.
    assert (Hid4 : idv (s_store s) (s_store s') (s_store t4) (s_store t4') id id').
    { eapply idv_down; [eapply idv_St; [exact Hid| |]|exact S1|exact S1']; eapply St_trans; try eassumption; eapply St_trans; eassumption. }
    destruct (nbb_template b); [|apply sat_ret; assumption]. apply sat_res. intros n n' N1 N2 _ _. pose proof (lk_nth _ _ _ _ _ _ (proj1 Hid4) N1 N2) as Ht.
    assert (Hcs : is_conv_or_structor n = is_conv_or_structor n') by (tags n n' Ht; reflexivity). rewrite <- Hcs. destruct (is_conv_or_structor n); [apply sat_fail|].
    go (sim_memid _ _). intros [] [] t5 t5' Q6 S6 S6' U6 U6' _. apply sat_ret; try assumption. eapply idv_St; eassumption.
  Qed.

  (** *** Specials *)
  Lemma sat_sym n n' s s' u u' : Q s s' -> St u (s_store s) -> St u' (s_store s') -> tag n = tag n' ->
    match sym_name n, sym_name n' with Some q, Some q' => exists id id', qualw (s_store s) (s_store s') q q' id id' | None, None => True | _, _ => False end ->
    sat u u' (intern E n) (intern E' n') s s' pv.
  Proof.
    intros HQ U U' Ht Hn. eapply sat_weak; [apply sat_intern; assumption|assumption|assumption|]. intros h h' t t' _ R R' (H1 & H2 & _).
    exists n, n'. split; [exact H1|]. split; [exact H2|]. split; [exact Ht|]. destruct (sym_name n), (sym_name n'); try contradiction; auto.
    destruct Hn as (id & id' & Hq). exists id, id'. eapply qualw_St; eassumption.
  Qed.
  Lemma sim_sym n n' : tag n = tag n' -> sym_name n = None -> sym_name n' = None -> sim (intern E n) (intern E' n') pv.
  Proof. intros Ht H1 H2 s s' HQ. apply sat_sym; try assumption; try apply St_refl. rewrite H1, H2. exact I. Qed.
  Lemma sim_table k : sim (demangle_special_table_symbol_node E K k) (demangle_special_table_symbol_node E' K' k) pv.
  Proof.
    unfold demangle_special_table_symbol_node. s1; [destruct k; sc|]. intros s s' HQ. eapply sat_bind; [apply sim_intern; [reflexivity|assumption]|apply St_refl|apply St_refl|].
    intros id id' t t' Q1 S1 S1' _ _ Hl. eapply sat_bind; [apply (sat_chain id id'); assumption|assumption|assumption|]. intros q q' t1 t1' Q2 S2 S2' U2 U2' Hq.
    apply qual_w in Hq. go (sim_eat_if _). intros o ? t2 t2' Q3 S3 S3' U3 U3' <-. go (sim_ok_or _ _). intros d ? t3 t3' Q4 S4 S4' U4 U4' <-.
    go sim_quals. intros p ? t4 t4' Q5 S5 S5' U5 U5' <-. destruct p as [quals x]. go (sim_eat_char _). intros aa ? t5 t5' Q6 S6 S6' U6 U6' <-.
    eapply (sat_bind anyv).
    - destruct aa; [apply sat_ret; auto using St_refl; exact I|]. go sim_fqt. intros c c' r r' R1 R2 R3 R4 R5 _. apply sat_ret; try assumption. exact I.
    - assumption.
    - assumption.
    - intros g g' t6 t6' Q7 S7 S7' U7 U7' _. apply sat_sym; try assumption; [reflexivity|]. cbn [sym_name]. exists id, id'.
      eapply qualw_St; [exact Hq| |]; repeat (eapply St_trans; [eassumption|]); assumption || apply St_refl.
  Qed.
  Lemma sim_guard th : sim (demangle_local_static_guard E K th) (demangle_local_static_guard E' K' th) pv.
  Proof.
    unfold demangle_local_static_guard. intros s s' HQ. eapply sat_bind; [apply sim_intern; [reflexivity|assumption]|apply St_refl|apply St_refl|].
    intros id id' t t' Q1 S1 S1' _ _ Hl. eapply sat_bind; [apply (sat_chain id id'); assumption|assumption|assumption|]. intros q q' t1 t1' Q2 S2 S2' U2 U2' Hq.
    apply qual_w in Hq. go (sim_eat_str _). intros v ? t2 t2' Q3 S3 S3' U3 U3' <-. eapply (sat_bind eqv); [|assumption|assumption|].
    { destruct v; [apply sat_ret; auto using St_refl; reflexivity|]. revert t2 t2' Q3 S3 S3' U3 U3'. intros t2 t2' Q3 _ _ _ _. revert t2 t2' Q3.
      match goal with |- forall t t', Q t t' -> sat _ _ ?m ?m' t t' ?V => change (sim m m' V) end. sc. }
    intros vis ? t3 t3' Q4 S4 S4' U4 U4' <-. go sim_text. intros x ? t4 t4' Q5 S5 S5' U5 U5' <-. eapply (sat_bind anyv); [|assumption|assumption|].
    { destruct (is_empty x); [apply sat_ret; auto using St_refl; exact I|]. revert t4 t4' Q5 S5 S5' U5 U5'. intros t4 t4' Q5 _ _ _ _. revert t4 t4' Q5.
      match goal with |- forall t t', Q t t' -> sat _ _ ?m ?m' t t' ?V => change (sim m m' V) end. sc. }
    intros [] [] t5 t5' Q6 S6 S6' U6 U6' _. apply sat_sym; try assumption; [reflexivity|]. cbn [sym_name]. exists id, id'.
    eapply qualw_St; [exact Hq| |]; repeat (eapply St_trans; [eassumption|]); assumption || apply St_refl.
  Qed.
  Lemma sim_untyped name : sim (demangle_untyped_variable E K name) (demangle_untyped_variable E' K' name) pv.
  Proof.
    unfold demangle_untyped_variable. intros s s' HQ. eapply sat_bind; [apply sim_intern; [reflexivity|assumption]|apply St_refl|apply St_refl|].
    intros id id' t t' Q1 S1 S1' _ _ Hl. eapply sat_bind; [apply (sat_chain id id'); assumption|assumption|assumption|]. intros q q' t1 t1' Q2 S2 S2' U2 U2' Hq.
    apply qual_w in Hq. go (sim_eat_char _). intros v ? t2 t2' Q3 S3 S3' U3 U3' <-. destruct v; [|apply sat_fail].
    apply sat_sym; try assumption; [reflexivity|]. cbn [sym_name]. exists id, id'. eapply qualw_St; eassumption.
  Qed.
  Lemma sim_rtti_base : sim (demangle_rtti_base_class_descriptor_node E K) (demangle_rtti_base_class_descriptor_node E' K') pv.
  Proof.
    unfold demangle_rtti_base_class_descriptor_node. do 8 (s1; [sc|]). intros s s' HQ. eapply sat_bind; [apply sim_intern; [reflexivity|assumption]|apply St_refl|apply St_refl|].
    intros id id' t t' Q1 S1 S1' _ _ Hl. eapply sat_bind; [apply (sat_chain id id'); assumption|assumption|assumption|]. intros q q' t1 t1' Q2 S2 S2' U2 U2' Hq.
    apply qual_w in Hq. go (sim_expect_char _ _). intros [] [] t2 t2' Q3 S3 S3' U3 U3' _.
    apply sat_sym; try assumption; [reflexivity|]. cbn [sym_name]. exists id, id'. eapply qualw_St; eassumption.
  Qed.
  Lemma sat_synth id id' s s' : Q s s' -> lk (s_store s) (s_store s') id id' ->
    sat (s_store s) (s_store s') (synthesize_from_id E id) (synthesize_from_id E' id') s s' (fun t t' q q' => qualw t t' q q' id id').
  Proof.
    intros HQ Hl. unfold synthesize_from_id. go (sat_intern _ _). intros c c' t t' Q1 S1 S1' _ _ (N1 & N2 & _).
    eapply sat_weak; [apply sat_intern; assumption|assumption|assumption|]. intros q q' r r' _ R R' (M1 & M2 & _).
    split; [eapply lk_St; [exact Hl|eapply St_trans; eassumption|eapply St_trans; eassumption]|]. exists c, c', [], [].
    split; [exact M1|]. split; [eapply fixed_St; [exact R|exact N1|exact I]|]. split; [exact M2|]. eapply fixed_St; [exact R'|exact N2|exact I].
  Qed.
  Definition qv (t t' : store) (q q' : handle) : Prop := exists id id', qualw t t' q q' id id'.
  Lemma sim_synth_name x x' : sim (synthesize_from_name E x) (synthesize_from_name E' x') qv.
  Proof.
    intros s s' HQ. unfold synthesize_from_name. eapply sat_bind; [apply sim_intern; [reflexivity|assumption]|apply St_refl|apply St_refl|].
    intros id id' t t' Q1 S1 S1' _ _ Hl. eapply sat_weak; [apply (sat_synth id id'); assumption|assumption|assumption|]. intros q q' r r' _ _ _ H. exists id, id'. exact H.
  Qed.
  Lemma sat_dyn h h' d d' dt u u' s s' : Q s s' -> St u (s_store s) -> St u' (s_store s') ->
    (exists a b, nth_error (s_store s) h = Some (NFunc a b)) -> (exists a b, nth_error (s_store s') h' = Some (NFunc a b)) ->
    sat u u' (x <- intern E (NDyn None d dt) ;; name <- synthesize_from_id E x ;; modify KFunc h (set_func_name name) ;;; ret h)
             (x <- intern E' (NDyn None d' dt) ;; name <- synthesize_from_id E' x ;; modify KFunc h' (set_func_name name) ;;; ret h') s s' pv.
  Proof.
    intros HQ U U' (a & b & Ha) (a' & b' & Ha'). eapply sat_bind; [apply sim_intern; [reflexivity|assumption]|assumption|assumption|].
    intros x x' t t' Q1 S1 S1' U1 U1' Hl. eapply sat_bind; [apply (sat_synth x x'); assumption|assumption|assumption|].
    intros q q' t1 t1' Q2 S2 S2' U2 U2' Hq. cbv beta in Hq. eapply sat_bind; [apply sat_modify; [apply kp_func|apply kp_func|assumption]|assumption|assumption|].
    intros [] [] t2 t2' Q3 S3 S3' U3 U3' (m & m' & M1 & M2 & K1 & K2 & T1 & T2). apply sat_ret; try assumption.
    exists (set_func_name q m), (set_func_name q' m'). split; [rewrite T1; eapply upd_same; eassumption|]. split; [rewrite T2; eapply upd_same; eassumption|].
    destruct m; try discriminate K1. destruct m'; try discriminate K2. cbn [set_func_name tag sym_name]. split; [reflexivity|]. exists x, x'. eapply qualw_St; eassumption.
  Qed.
  Lemma sim_stub d : sim (demangle_init_fini_stub E K d) (demangle_init_fini_stub E' K' d) pv.
  Proof.
    unfold demangle_init_fini_stub. s1; [sc|]. intros s s' HQ. go sim_declarator. intros h h' t t' Q1 S1 S1' _ _ (n & n' & q & q' & id & id' & N1 & N2 & Ht & Hv & H1 & H2 & Hq).
    apply sat_res. intros m m' M1 M2 _ _. assert (m = n) as -> by congruence. assert (m' = n') as -> by congruence.
    tags n n' Ht; try discriminate Hv.
    - eapply (sat_bind eqv); [|assumption|assumption|].
      { destruct a; [apply sim_expect_str|apply sim_expect_char]; assumption. }
      intros [] [] t1 t1' Q2 S2 S2' U2 U2' _. go sim_function_encoding. intros f f' t2 t2' Q3 S3 S3' U3 U3' (nm & nm' & sig & sig' & F1 & F2 & _).
      apply sat_dyn; try assumption; eauto.
    - destruct a; [apply sat_fail|]. cbn [sym_name] in H1, H2. subst. cbn [ok_or].
      assert (Heq : forall {B} (f f' : handle -> M B) W, sat (s_store s) (s_store s') (f q) (f' q') t t' W -> sat (s_store s) (s_store s') (bind (ret q) f) (bind (ret q') f') t t' W) by (intros B f f' W H; exact H).
      apply Heq. apply sat_dyn; try assumption; eauto.
  Qed.
  Lemma sim_vcall : sim (demangle_vcall_thunk_node E K) (demangle_vcall_thunk_node E' K') pv.
  Proof.
    unfold demangle_vcall_thunk_node. intros s s' HQ. eapply sat_bind; [apply sim_intern; [reflexivity|assumption]|apply St_refl|apply St_refl|].
    intros id id' t t' Q1 S1 S1' _ _ Hl. eapply sat_bind; [apply (sat_chain id id'); assumption|assumption|assumption|]. intros q q' t1 t1' Q2 S2 S2' U2 U2' Hq.
    apply qual_w in Hq. go (sim_expect_str _ _). intros [] [] t2 t2' Q3 S3 S3' U3 U3' _. go sim_unsigned. intros off ? t3 t3' Q4 S4 S4' U4 U4' <-.
    eapply sat_bind; [apply sim_modify; [apply kp_vcall|apply kp_vcall|assumption]|assumption|assumption|]. intros [] [] t4 t4' Q5 S5 S5' U5 U5' _.
    go (sim_expect_char _ _). intros [] [] t5 t5' Q6 S6 S6' U6 U6' _. go sim_cc. intros cc ? t6 t6' Q7 S7 S7' U7 U7' <-.
    eapply sat_bind; [apply sim_intern; [reflexivity|assumption]|assumption|assumption|]. intros g g' t7 t7' Q8 S8 S8' U8 U8' _.
    apply sat_sym; try assumption; [reflexivity|]. cbn [sym_name]. exists id, id'.
    eapply qualw_St; [exact Hq| |]; repeat (eapply St_trans; [eassumption|]); assumption || apply St_refl.
  Qed.

  (** *** String literals *)
  Lemma sim_write (c c' : bool) x x' b b' : sim (run_w (w_if c (w_str E x)) b) (run_w (w_if c' (w_str E' x')) b') anyv.
  Proof. apply sim_same; intros s; apply run_skip, ow_if, ow_str. Qed.
  Lemma sim_wide fuel : forall len tr b b', sim (wide_loop E fuel len tr b) (wide_loop E' fuel len tr b') anyv.
  Proof. induction fuel as [|fuel IH]; intros len tr b b'; cbn [wide_loop]; [sc|]. s1; [sc|]. s1; [sc|]. s1; [sc|]. s1; [sc|]. s1; [sc|]. ba; [apply sim_write|]. apply IH. Qed.
  Lemma sim_narrow fuel : forall acc, sim (narrow_loop fuel acc) (narrow_loop fuel acc) eqv.
  Proof. induction fuel as [|fuel IH]; intros acc; cbn [narrow_loop]; sc. apply IH. Qed.
  Lemma sim_nout bytes sz num : forall count i tr b b', sim (narrow_out E bytes sz num i count tr b) (narrow_out E' bytes sz num i count tr b') anyv.
  Proof. induction count as [|count IH]; intros i tr b b'; cbn [narrow_out]; [sc|]. s1; [sc|]. ba; [apply sim_write|]. apply IH. Qed.
  Lemma sim_string : sim (demangle_string_literal E) (demangle_string_literal E') pv.
  Proof.
    unfold demangle_string_literal. do 4 (s1; [sc|]). s1. s1; [sc|]. s1; [sc|]. s1; [sc|]. s1; [sc|]. s1; [sc|]. s1; [sc|]. s1; [sc|].
    ba.
    - s1; cbv zeta.
      + ba; [apply sim_wide|]. sc.
      + s1; [apply sim_narrow|]. cbv zeta. s1; [sc|]. s1; [sc|]. ba; [apply sim_nout|]. sc.
    - match goal with |- sim (let '(_, _) := ?x in _) (let '(_, _) := ?y in _) _ => destruct x as [[? ?] ?], y as [[? ?] ?] end.
      ba; [apply sim_same; intros s; apply take_skip|]. apply sim_sym; reflexivity.
  Qed.
  Lemma sat_qvar q q' ty ty' s s' : Q s s' -> qv (s_store s) (s_store s') q q' ->
    sat (s_store s) (s_store s') (intern E (NVar (Some (VQualified q)) None ty)) (intern E' (NVar (Some (VQualified q')) None ty')) s s' pv.
  Proof. intros HQ H. apply sat_sym; try assumption; try apply St_refl; reflexivity. Qed.
  Lemma sim_rtti : sim (rtti_type_descriptor E K) (rtti_type_descriptor E' K') pv.
  Proof.
    unfold rtti_type_descriptor. bl; [apply HKt|]. s1; [sc|]. s1; [sc|]. s1; [|sc]. intros s s' HQ. go (sim_synth_name _ _). intros q q' t t' Q1 S1 S1' U1 U1' Hq.
    apply sat_end; try assumption. apply sat_qvar; assumption.
  Qed.
  Definition opv (t t' : store) (o o' : option handle) : Prop :=
    match o, o' with Some h, Some h' => pv t t' h h' | None, None => True | _, _ => False end.
  Lemma sim_some m m' : sim m m' pv -> sim (h <- m ;; ret (Some h)) (h <- m' ;; ret (Some h)) opv.
  Proof. intros H s s' HQ. go H. intros h h' t t' Q1 S1 S1' U1 U1' Hp. apply sat_ret; try assumption. Qed.
  Lemma sim_special_intrinsic : sim (demangle_special_intrinsic E K) (demangle_special_intrinsic E' K') opv.
  Proof.
    unfold demangle_special_intrinsic. s1; [sc|]. s1; [|apply sim_ret; intros; exact I]. apply sim_some.
    match goal with k : sik |- _ => destruct k end; first [apply sim_table|apply sim_vcall|apply sim_guard|apply sim_string|apply sim_rtti
      |apply sim_untyped|apply sim_rtti_base|apply sim_stub|solve [sc]].
  Qed.
  Lemma sim_md5 : sim (demangle_md5_name E) (demangle_md5_name E') pv.
  Proof.
    unfold demangle_md5_name. s1; [sc|]. s1; [sc|]. s1; [sc|]. s1; [sc|]. s1; [sc|]. s1; [sc|]. s1; [sc|]. cbv zeta. s1; [|sc]. s1.
    intros z z' HQ. go (sim_synth_name _ _). intros q q' t t' Q1 S1 S1' U1 U1' Hq. apply sat_sym; try assumption. reflexivity.
  Qed.
  Lemma sim_typeinfo : sim (demangle_typeinfo_name E K) (demangle_typeinfo_name E' K') pv.
  Proof. unfold demangle_typeinfo_name. s1; [sc|]. bl; [apply HKt|]. s1; [sc|]. s1; [|sc]. apply sim_sym; reflexivity. Qed.
  Lemma sim_parse : sim (do_parse E K) (do_parse E' K') pv.
  Proof.
    unfold do_parse. s1; [sc|]. s1; [apply sim_typeinfo|]. s1; [apply sim_md5|]. s1; [sc|]. intros s s' HQ. go sim_special_intrinsic.
    intros o o' t t' Q1 S1 S1' U1 U1' Ho. destruct o as [h|], o' as [h'|]; try contradiction; [apply sat_ret; assumption|].
    eapply sat_weak; [apply sim_declarator; assumption|assumption|assumption|]. intros h h' r r' _ _ _ (n & n' & q & q' & id & id' & N1 & N2 & Ht & _ & H1 & H2 & Hq).
    exists n, n'. rewrite H1, H2. repeat (split; [assumption|]). exists id, id'. exact Hq.
  Qed.
End Parse.

Lemma sim_knot E E' : forall fuel,
  sim (k_parse (knot_of E fuel)) (k_parse (knot_of E' fuel)) pv /\ (forall m, sim (k_type (knot_of E fuel) m) (k_type (knot_of E' fuel) m) lkv) /\
  (forall b, simi (k_tinst (knot_of E fuel) b) (k_tinst (knot_of E' fuel) b)).
Proof.
  induction fuel as [|fuel (I1 & I2 & I3)]; cbn [knot_of k_parse k_type k_tinst]; [repeat split; intros; intros s s' _; apply sat_fuel|].
  repeat split; intros; [apply sim_parse; assumption|apply sim_type; assumption|apply simi_tinst; assumption].
Qed.
