(** From node stores to C++ text: when a node denotes a type or prints a given string, and the
    proof that printing does so.  Proof infrastructure. *)
From Verif Require Import Output Utf8 Show.

(** ** Partial stores
    A world is a store in which some nodes are still hidden (they may yet be modified). *)
Definition world := list (option node).
Definition wget (w : world) (h : handle) : option node := match nth_error w h with Some o => o | None => None end.
Definition sub (w w' : world) : Prop := forall h n, wget w h = Some n -> wget w' h = Some n.
Definition compat (w : world) (sg : store) : Prop :=
  length w = length sg /\ forall h n, wget w h = Some n -> nth_error sg h = Some n.
Fixpoint cnt (w : world) : nat := match w with [] => 0 | Some _ :: w => S (cnt w) | None :: w => cnt w end.

Lemma sub_refl w : sub w w.
Proof. intros h n H. exact H. Qed.
Lemma sub_trans a b c : sub a b -> sub b c -> sub a c.
Proof. intros H1 H2 h n H. auto. Qed.
Lemma wget_app w m h n : wget w h = Some n -> wget (w ++ m) h = Some n.
Proof.
  unfold wget. intros H. destruct (nth_error w h) as [o|] eqn:He; [|discriminate].
  rewrite nth_error_app1, He by (apply nth_error_Some; congruence). exact H.
Qed.
Lemma sub_app w m : sub w (w ++ m).
Proof. intros h n. apply wget_app. Qed.
Lemma cnt_app a b : cnt (a ++ b) = cnt a + cnt b.
Proof. induction a as [|[x|] a IH]; cbn; auto. Qed.
Lemma cnt_len w : cnt w <= length w.
Proof. induction w as [|[x|] w IH]; cbn; lia. Qed.
Lemma sub_cnt w : forall w', sub w w' -> cnt w <= cnt w'.
Proof.
  induction w as [|o w IH]; intros w' H; [cbn; lia|].
  assert (Ht : sub w (tl w')).
  { intros h n Hh. specialize (H (S h) n). unfold wget in *. cbn in H. destruct w' as [|x w']; cbn in *; [|auto].
    specialize (H Hh). discriminate. }
  specialize (IH _ Ht). destruct o as [n|]; cbn [cnt].
  - specialize (H 0 n eq_refl). destruct w' as [|[x|] w']; cbn in *; try discriminate; lia.
  - destruct w' as [|[x|] w']; cbn in *; lia.
Qed.
Lemma wget_cnt w h n : wget w h = Some n -> 1 <= cnt w.
Proof.
  revert h. induction w as [|[x|] w IH]; intros h H; cbn; [destruct h; discriminate|lia|].
  destruct h as [|h]; [discriminate|]. apply (IH h). exact H.
Qed.

Section Den.
  Variable E : env.

  (** ** Denotation
      [D h t]: child [h] denotes type [t]; [S k h x]: child [h], resolved at kind [k], prints [x];
      [g]: the nodes themselves. *)
  Section Node.
    Variable D : handle -> ty -> Prop.
    Variable S : kind -> handle -> str -> Prop.
    Variable F : handle -> fn_class -> adjustment -> option ty -> Prop.
    Variable g : handle -> option node.

    Definition opt_rel {A B} (R : A -> B -> Prop) (a : option A) (b : option B) : Prop :=
      match a, b with None, None => True | Some x, Some y => R x y | _, _ => False end.

    Definition dsig (f : fsig) (t : ty) : Prop :=
      match t with
      | TFun q cc rq r ps v ne =>
        fs_quals f = q /\ fs_cc f = cc /\ fs_ref f = rq /\ fs_variadic f = v /\ fs_noexcept f = ne /\
        opt_rel D (fs_ret f) r /\
        opt_rel (fun h l => S KNodes h (join (L ", ") (map (show E) l))) (fs_params f) ps
      | _ => False
      end.
    Definition dnode (n : node) (t : ty) : Prop :=
      match n with
      | NPrim q k => t = TPrim q k
      | NTag q qn k => exists name, t = TTag q k name /\ S KQual qn (qualified name)
      | NPtr q a c p =>
        exists a' c' pt, a = Some a' /\ t = TPtr q a' c' pt /\
          opt_rel (fun h name => S KQual h (qualified name)) c c' /\ D p pt
      | NArr q d e =>
        exists ds et, t = TArr q ds et /\ D e et /\
          exists l, g d = Some (NNodes l) /\ Forall2 (fun h v => g h = Some (NInt v false)) l ds
      | NFSig f => fs_class f = FC_Global /\ dsig f t
      | NCustom q id => exists x, t = TCustom q x /\ S KIdent id x
      | _ => False
      end.
    (** Template arguments. *)
    Definition dtp (tp : option handle) (x : str) : Prop :=
      match tp with
      | None => x = []
      | Some h => exists y, S KNodes h y /\ x = L "<" ++ y ++ L ">"
      end.
    (** [fc] is the class a function symbol has got, with its adjustment. *)
    Definition dclass (fc : N) (c : fn_class) : Prop :=
      contains fc FC_Private = (match f_access c with Some Private => true | _ => false end) /\
      contains fc FC_Protected = (match f_access c with Some Protected => true | _ => false end) /\
      contains fc FC_Public = (match f_access c with Some Public => true | _ => false end) /\
      negb (contains fc FC_Global) && contains fc FC_Static = f_static c /\
      contains fc FC_Virtual = f_virtual c /\
      contains fc FC_ExternC = f_externc c.
    Definition dadj (fc : N) (ta : thisadj) (a : adjustment) : Prop :=
      match a with
      | NoAdjustment => False
      | Adjustor n => contains fc FC_StaticThisAdjust = true /\ ta_static ta = n
      | Vtordisp v n => contains fc FC_StaticThisAdjust = false /\ contains fc FC_VirtualThisAdjust = true /\
                        contains fc FC_VirtualThisAdjustEx = false /\ ta_vtordisp ta = v /\ ta_static ta = n
      | Vtordispex p o v n => contains fc FC_StaticThisAdjust = false /\ contains fc FC_VirtualThisAdjust = true /\
                        contains fc FC_VirtualThisAdjustEx = true /\ ta_vbptr ta = p /\ ta_vboffset ta = o /\
                        ta_vtordisp ta = v /\ ta_static ta = n
      | VirtualCall _ => contains fc FC_StaticThisAdjust = false /\ contains fc FC_VirtualThisAdjust = false
      end.
    (** A signature node in a function symbol. *)
    Definition dfun (n : node) (c : fn_class) (a : adjustment) (sig : option ty) : Prop :=
      exists f, dclass (fs_class f) c /\
        match a with NoAdjustment => n = NFSig f | _ => exists ta, n = NThunk f ta /\ dadj (fs_class f) ta a end /\
        match sig with
        | Some t => contains (fs_class f) FC_NoParameterList = false /\ dsig f t
        | None => contains (fs_class f) FC_NoParameterList = true /\ fs_quals f = Q_None /\
                  fs_cc f = (match a with VirtualCall cc => cc | _ => None end) /\
                  fs_ref f = None /\ fs_noexcept f = false /\ fs_ret f = None
        end.
    Definition daccess (sc : option storage_class) (a : option access) : Prop :=
      match sc, a with
      | Some PrivateStatic, Some Private | Some ProtectedStatic, Some Protected | Some PublicStatic, Some Public
      | Some Global, None | Some FunctionLocalStatic, None | None, None => True
      | _, _ => False
      end.
    (** What a node prints in full. *)
    Definition dshow (n : node) (x : str) : Prop :=
      match n with
      | NNamed tp b => ustr b /\ exists y, dtp tp y /\ x = b ++ y
      | NIntrinsic tp (Some op) => exists y, dtp tp y /\ x = ifk_name op ++ y
      | NIntrinsic tp None => dtp tp x
      | NLitOp tp b => ustr b /\ exists y, dtp tp y /\ x = (L "operator """"" ++ b) ++ y
      | NStructor tp (Some c) d => exists y z, dtp tp y /\ S KIdent c z /\ x = opt d (L "~") ++ z ++ y
      | NConv tp (Some r) => exists y t, dtp tp y /\ D r t /\ x = L "operator" ++ y ++ L " " ++ show E t
      | NNodes l => exists xs, Forall2 (S KAny) l xs /\ x = join (L ", ") xs
      | NQual c => exists l xs, g c = Some (NNodes l) /\ Forall2 (S KAny) l xs /\ x = join (L "::") xs
      | NInt v neg => x = opt neg (L "-") ++ dec_N v
      | NTpr (Some s) [] (Some APointer) _ => exists y, S KSym s y /\ x = L "&" ++ y
      | NTpr (Some s) [] (Some AReference) _ => S KSym s x
      | NTpr (Some s) (z :: zs) _ _ => exists y, S KSym s y /\ x = L "{" ++ y ++ L ", " ++ join (L ", ") (map dec_Z (z :: zs)) ++ L "}"
      | NTpr None [] (Some APointer) _ => x = L "&"
      | NTpr None (z :: zs) _ _ => x = L "{" ++ join (L ", ") (map dec_Z (z :: zs)) ++ L "}"
      | NVar (Some (VQualified h)) sc (Some t) =>
        exists a ty y, daccess sc a /\ D t ty /\ S KQual h y /\ x = show_variable E a ty y
      | NVar (Some (VQualified h)) None None => S KQual h x
      | NVar (Some VTypeDescriptor) None (Some t) => exists ty, D t ty /\ x = show_type_name E ty
      | NVcall _ off => x = vcall_text E off
      | NLsg _ th i => x = guard_text th i
      | NRtti _ a b c d => x = base_descriptor_text a b c d
      | NDyn _ (DVariable h) d => exists y, S KVar h y /\ x = dynamic_text d true y
      | NDyn _ (DName h) d => exists y, S KQual h y /\ x = dynamic_text d false y
      | NSpecial h t q => exists y tn, S KQual h y /\ opt_rel (fun h n => S KQual h (qualified n)) t tn /\ x = show_table E q y tn
      | NLsgVar h _ => S KQual h x
      | NMd5 h => S KQual h x
      | NStrLit _ s trunc k => ustr s /\ x = str_prefix k ++ s ++ L """" ++ (if trunc then L "..." else [])
      | NFunc (Some h) s =>
        exists c a sig y, F s c a sig /\ S KQual h y /\ x = show_function E c a sig y
      | NPrim _ _ | NFSig _ | NPtr _ _ _ _ | NTag _ _ _ | NArr _ _ _ | NCustom _ _ =>
        exists t, dnode n t /\ x = show E t
      | _ => False
      end.
  End Node.

  Fixpoint dty (n : nat) (w : world) (h : handle) (t : ty) {struct n} : Prop :=
    match n with
    | O => False
    | S n => exists nd, wget w h = Some nd /\ dnode (dty n w) (dstr n w) (wget w) nd t
    end
  with dstr (n : nat) (w : world) (k : kind) (h : handle) (x : str) {struct n} : Prop :=
    match n with
    | O => False
    | S n => exists nd, wget w h = Some nd /\ hkind k nd = true /\ dshow (dty n w) (dstr n w) (dfn n w) (wget w) nd x
    end
  with dfn (n : nat) (w : world) (h : handle) (c : fn_class) (a : adjustment) (sig : option ty) {struct n} : Prop :=
    match n with
    | O => False
    | S n => exists nd, wget w h = Some nd /\ dfun (dty n w) (dstr n w) nd c a sig
    end.

  (** ** Monotonicity *)
  Section Mono.
    Variables D D' : handle -> ty -> Prop.
    Variables S S' : kind -> handle -> str -> Prop.
    Variables F F' : handle -> fn_class -> adjustment -> option ty -> Prop.
    Variables g g' : handle -> option node.
    Hypothesis HD : forall h t, D h t -> D' h t.
    Hypothesis HS : forall k h x, S k h x -> S' k h x.
    Hypothesis HF : forall h c a s, F h c a s -> F' h c a s.
    Hypothesis Hg : forall h n, g h = Some n -> g' h = Some n.

    Lemma opt_rel_mono {A B} (R R' : A -> B -> Prop) a b : (forall x y, R x y -> R' x y) -> opt_rel R a b -> opt_rel R' a b.
    Proof. destruct a, b; cbn; auto. Qed.
    Lemma Forall2_mono {A B} (R R' : A -> B -> Prop) a b : (forall x y, R x y -> R' x y) -> Forall2 R a b -> Forall2 R' a b.
    Proof. intros H. induction 1; constructor; auto. Qed.
    Lemma dsig_mono f t : dsig D S f t -> dsig D' S' f t.
    Proof.
      destruct t; cbn; try contradiction. intros (? & ? & ? & ? & ? & Hr & Hp). repeat split; auto.
      - eapply opt_rel_mono; [|exact Hr]. auto.
      - eapply opt_rel_mono; [|exact Hp]. cbn. auto.
    Qed.
    Lemma dnode_mono n t : dnode D S g n t -> dnode D' S' g' n t.
    Proof.
      destruct n; cbn; try contradiction; auto.
      - intros [? ?]. split; [assumption|]. apply dsig_mono; assumption.
      - intros (a' & c' & pt & -> & -> & Hc & Hp). exists a', c', pt. repeat split; auto. eapply opt_rel_mono; [|exact Hc]. cbn. auto.
      - intros (name & -> & H). eauto.
      - intros (ds & et & -> & He & l & Hl & Hf). exists ds, et. split; [reflexivity|]. split; [auto|]. exists l. split; [auto|].
        eapply Forall2_mono; [|exact Hf]. cbn. auto.
      - intros (x & -> & H). eauto.
    Qed.
    Lemma dtp_mono tp x : dtp S tp x -> dtp S' tp x.
    Proof. destruct tp; cbn; auto. intros (y & H & ->). eauto. Qed.
    Lemma dfun_mono n c a s : dfun D S n c a s -> dfun D' S' n c a s.
    Proof.
      intros (f & Hc & Ha & Hs). exists f. split; [exact Hc|]. split; [exact Ha|].
      destruct s; [|exact Hs]. destruct Hs as [H1 H2]. split; [exact H1|]. apply dsig_mono; assumption.
    Qed.
    Lemma dshow_mono n x : dshow D S F g n x -> dshow D' S' F' g' n x.
    Proof.
      assert (Ht : forall n, (exists t, dnode D S g n t /\ x = show E t) -> exists t, dnode D' S' g' n t /\ x = show E t).
      { intros m (t & H & ->). exists t. split; [apply dnode_mono; exact H|reflexivity]. }
      destruct n; try exact (fun H => H); try (apply Ht); cbn.
      - destruct id; intros (y & H & ->); eauto.
      - intros (Hb & y & H & ->). split; [exact Hb|]. exists y. split; [apply dtp_mono; exact H|reflexivity].
      - destruct op; [|apply dtp_mono]. intros (y & H & ->). exists y. split; [apply dtp_mono; exact H|reflexivity].
      - intros (Hb & y & H & ->). split; [exact Hb|]. exists y. split; [apply dtp_mono; exact H|reflexivity].
      - destruct target; [|contradiction]. intros (y & t & H & Hd & ->). exists y, t. split; [apply dtp_mono; exact H|auto].
      - destruct cls; [|contradiction]. intros (y & z & H & Hd & ->). exists y, z. split; [apply dtp_mono; exact H|auto].
      - intros (xs & H & ->). exists xs. split; [eapply Forall2_mono; [|exact H]; auto|reflexivity].
      - intros (l & xs & Hl & H & ->). exists l, xs. repeat split; [auto|eapply Forall2_mono; [|exact H]; auto].
      - destruct sym as [s|], offs as [|z zs]; auto.
        + destruct a as [[]|]; auto. intros (y & H & ->). eauto.
        + intros (y & H & ->). eauto.
      - apply HS.
      - intros (y & tn & H & Ht' & ->). exists y, tn. split; [auto|]. split; [|reflexivity]. eapply opt_rel_mono; [|exact Ht']. cbv beta. auto.
      - apply HS.
      - destruct name as [[h|]|], sc, ty; auto; try (intros (a & t & y & Ha & Hd & Hs & ->); exists a, t, y; auto; fail).
        intros (t & Hd & ->). eauto.
      - destruct name as [h|]; auto. intros (c & a & s & y & Hf & Hs & ->). exists c, a, s, y. auto.
    Qed.
  End Mono.

  Lemma den_mono n : forall m w w', n <= m -> sub w w' ->
    (forall h t, dty n w h t -> dty m w' h t) /\
    (forall k h x, dstr n w k h x -> dstr m w' k h x) /\
    (forall h c a s, dfn n w h c a s -> dfn m w' h c a s).
  Proof.
    induction n as [|n IH]; intros m w w' Hm Hw; [repeat split; contradiction|].
    destruct m as [|m]; [lia|]. destruct (IH m w w' ltac:(lia) Hw) as (H1 & H2 & H3). repeat split.
    - intros h t (nd & Hn & Hd). exists nd. split; [apply Hw; exact Hn|]. eapply dnode_mono; [exact H1|exact H2|exact Hw|exact Hd].
    - intros k h x (nd & Hn & Hk & Hd). exists nd. split; [apply Hw; exact Hn|]. split; [exact Hk|].
      eapply dshow_mono; [exact H1|exact H2|exact H3|exact Hw|exact Hd].
    - intros h c a s (nd & Hn & Hd). exists nd. split; [apply Hw; exact Hn|]. eapply dfun_mono; [exact H1|exact H2|exact Hd].
  Qed.
  Lemma dty_mono n m w w' h t : n <= m -> sub w w' -> dty n w h t -> dty m w' h t.
  Proof. intros H1 H2. apply den_mono; assumption. Qed.
  Lemma dstr_mono n m w w' k h x : n <= m -> sub w w' -> dstr n w k h x -> dstr m w' k h x.
  Proof. intros H1 H2. apply den_mono; assumption. Qed.
  Lemma dfn_mono n m w w' h c a s : n <= m -> sub w w' -> dfn n w h c a s -> dfn m w' h c a s.
  Proof. intros H1 H2. apply den_mono; assumption. Qed.
  Lemma dty_unfold n w h t : dty n w h t -> exists nd, wget w h = Some nd /\ dnode (dty n w) (dstr n w) (wget w) nd t.
  Proof.
    destruct n as [|n]; [contradiction|]. intros (nd & Hn & Hd). exists nd. split; [exact Hn|].
    eapply dnode_mono; [| | |exact Hd]; [intros h0 t0 H; eapply dty_mono; [|apply sub_refl|exact H]; lia|intros k0 h0 x0 H; eapply dstr_mono; [|apply sub_refl|exact H]; lia|auto].
  Qed.
  Lemma dstr_any n w k h x : dstr n w k h x -> dstr n w KAny h x.
  Proof. destruct n; [contradiction|]. intros (nd & H1 & _ & H2). exists nd. auto. Qed.
End Den.
