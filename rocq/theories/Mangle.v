(** A concrete encoder for variable and function declarations, and the round trip through it
    (C24, C25).  The encoder is specification; it follows the compiler's scheme: names and
    parameter types are replaced by digits when they have been remembered. *)
From Verif Require Import Parser Api Utf8 Show Grammar Number Safety Trip NameRefs NumArr Members.

(** ** The fragment of declarations *)
Definition is_const (q : N) := contains q Q_Const.
Definition is_volatile (q : N) := contains q Q_Volatile.
Definition is_ptr64 (q : N) := contains q Q_Pointer64.
Definition is_restrict (q : N) := contains q Q_Restrict.
Definition is_unaligned (q : N) := contains q Q_Unaligned.
Definition cv_part (q : N) : N := cvq (is_const q) (is_volatile q).
Definition ext_part (q : N) : N := extq (is_ptr64 q) (is_restrict q) (is_unaligned q).
Definition quals (t : ty) : N :=
  match t with TPrim q _ | TTag q _ _ | TPtr q _ _ _ | TArr q _ _ | TFun q _ _ _ _ _ _ | TCustom q _ => q end.
Definition is_fun (t : ty) : bool := match t with TFun _ _ _ _ _ _ _ => true | _ => false end.
(** A scoped name: at least one identifier. *)
Definition name_ok (n : list str) : Prop := n <> [] /\ Forall ident n.
(** A type without qualifiers at the top (those of a pointer or array are part of it). *)
Definition unqualified (t : ty) : Prop := match t with TPrim q _ | TTag q _ _ => q = Q_None | _ => True end.
Definition all_types (P : ty -> Prop) : list ty -> Prop :=
  fix go l := match l with [] => True | t :: l => P t /\ go l end.

(** The types of the fragment.  [const] and [volatile] may appear everywhere C++ allows them in a
    mangled name, [__ptr64], [__restrict] and [__unaligned] on object pointers and on [this]. *)
Fixpoint type_ok (t : ty) : Prop :=
  match t with
  | TPrim q _ => q = cv_part q
  | TTag q _ n => q = cv_part q /\ name_ok n
  | TPtr q a cls p =>
    type_ok p /\
    (a = APointer \/ cv_part q = Q_None /\ cls = None) /\
    q = N.lor (cv_part q) (if is_fun p then Q_None else ext_part q) /\
    match cls with
    | None => match p with TFun q' _ rq' _ _ _ _ => q' = Q_None /\ rq' = None | _ => True end
    | Some n => name_ok n /\ (is_fun p = true \/ quals p = cv_part (quals p))
    end
  | TArr q ds e => q = cv_part q /\ ds <> [] /\ Forall (fun d => (d < 2 ^ 64)%N) ds /\ (N.of_nat (length ds) < 2 ^ 64)%N /\ type_ok e /\ unqualified e
  | TFun q cc _ r ps v _ =>
    q = N.lor (ext_part q) (cv_part q) /\ cc <> None /\
    match r with None => True | Some r => type_ok r end /\
    match ps with
    | None => v = false
    | Some l => all_types (fun p => type_ok p /\ unqualified p /\ p <> TPrim Q_None Void) l
    end
  | TCustom _ _ => False
  end.

(** ** The encoder *)
Fixpoint find {A} (p : A -> bool) (l : list A) (i : nat) : option nat :=
  match l with [] => None | x :: l => if p x then Some i else find p l (S i) end.
Definition enc_piece (x : str) (G : tab) : str * tab :=
  match find (str_eqb x) (fst G) 0 with
  | Some i => if i <? 10 then ([digit_char i], G) else (x ++ L "@", remember x G)
  | None => (x ++ L "@", remember x G)
  end.
(** Innermost first. *)
Fixpoint enc_chain (xs : list str) (G : tab) : str * tab :=
  match xs with
  | [] => (L "@", G)
  | x :: xs => let '(t, G1) := enc_piece x G in let '(t', G2) := enc_chain xs G1 in (t ++ t', G2)
  end.
Definition enc_name (n : list str) (G : tab) : str * tab := enc_chain (rev n) G.

Definition ptr_letter (q : N) (a : affinity) : str :=
  match a with
  | APointer => [(ch "P" + (if is_const q then 1 else 0) + (if is_volatile q then 2 else 0))%N]
  | AReference => L "A"
  | ARValueReference => L "$$Q"
  end.
Definition ext_letters (q : N) : str := ext_code (is_ptr64 q) (is_restrict q) (is_unaligned q).
Definition cv_letter (member : bool) (q : N) : N := cv_code member (is_const q) (is_volatile q).
Definition cc_letter (cc : option call_conv) : N :=
  match cc with Some c => match cc_letters c with l :: _ => l | [] => 0%N end | None => 0%N end.
Definition ref_letter (rq : option ref_qual) : str :=
  match rq with None => [] | Some RQReference => L "G" | Some RQRValueReference => L "H" end.
Definition this_letters (q : N) (rq : option ref_qual) : str := ext_letters q ++ ref_letter rq ++ [cv_letter false q].

(** Equality of types, to find a remembered parameter. *)
Fixpoint forall2b {A} (p : A -> A -> bool) (l m : list A) : bool :=
  match l, m with [], [] => true | x :: l, y :: m => p x y && forall2b p l m | _, _ => false end.
Definition optb {A} (p : A -> A -> bool) (a b : option A) : bool :=
  match a, b with None, None => true | Some x, Some y => p x y | _, _ => false end.
Definition prim_eqb (a b : prim_kind) : bool := str_eqb (prim_code a) (prim_code b).
Definition tag_eqb (a b : tag_kind) : bool := str_eqb (tag_code a) (tag_code b).
Definition aff_eqb (a b : affinity) : bool :=
  match a, b with APointer, APointer | AReference, AReference | ARValueReference, ARValueReference => true | _, _ => false end.
Definition cc_eqb (a b : call_conv) : bool := str_eqb (cc_letters a) (cc_letters b).
Definition rq_eqb (a b : ref_qual) : bool :=
  match a, b with RQReference, RQReference | RQRValueReference, RQRValueReference => true | _, _ => false end.
Fixpoint ty_eqb (s t : ty) {struct s} : bool :=
  match s, t with
  | TPrim q k, TPrim q' k' => (q =? q')%N && prim_eqb k k'
  | TTag q k n, TTag q' k' n' => (q =? q')%N && tag_eqb k k' && forall2b str_eqb n n'
  | TPtr q a c p, TPtr q' a' c' p' => (q =? q')%N && aff_eqb a a' && optb (forall2b str_eqb) c c' && ty_eqb p p'
  | TArr q d e, TArr q' d' e' => (q =? q')%N && forall2b N.eqb d d' && ty_eqb e e'
  | TFun q c rq r ps v ne, TFun q' c' rq' r' ps' v' ne' =>
    (q =? q')%N && optb cc_eqb c c' && optb rq_eqb rq rq' &&
    match r, r' with None, None => true | Some x, Some y => ty_eqb x y | _, _ => false end &&
    match ps, ps' with
    | None, None => true
    | Some l, Some l' =>
      (fix go l l' := match l, l' with [], [] => true | x :: l, y :: l' => ty_eqb x y && go l l' | _, _ => false end) l l'
    | _, _ => false
    end && Bool.eqb v v' && Bool.eqb ne ne'
  | TCustom q x, TCustom q' x' => (q =? q')%N && str_eqb x x'
  | _, _ => false
  end.

Section Enc.
  Variable enc : ty -> tab -> str * tab.
  Definition enc_param (t : ty) (G : tab) : str * tab :=
    match find (ty_eqb t) (snd G) 0 with
    | Some i => if i <? 10 then ([digit_char i], G) else let '(s, G1) := enc t G in (s, if 1 <? length s then remember_param t G1 else G1)
    | None => let '(s, G1) := enc t G in (s, if 1 <? length s then remember_param t G1 else G1)
    end.
  Definition enc_params : list ty -> tab -> str * tab :=
    fix go l G := match l with [] => ([], G) | t :: l => let '(s, G1) := enc_param t G in let '(s', G2) := go l G1 in (s ++ s', G2) end.
  (** A class or qualified scalar is returned with its qualifiers. *)
  Definition enc_ret (r : option ty) (G : tab) : str * tab :=
    match r with
    | None => (L "@", G)
    | Some r =>
      let '(s, G1) := enc r G in
      match r with
      | TPrim q _ => (opt (negb (q =? Q_None)%N) (L "?" ++ [cv_letter false q]) ++ s, G1)
      | TTag q _ _ => (L "?" ++ [cv_letter false q] ++ s, G1)
      | _ => (s, G1)
      end
    end.
  Definition enc_fn (this : bool) (q : N) (cc : option call_conv) (rq : option ref_qual) (r : option ty) (ps : option (list ty)) (v ne : bool) (G : tab) : str * tab :=
    let '(rs, G1) := enc_ret r G in
    let '(s, G2) := match ps with
                    | None => (L "X", G1)
                    | Some l => let '(s, G2) := enc_params l G1 in (s ++ (if v then L "Z" else L "@"), G2)
                    end in
    ((if this then this_letters q rq else []) ++ [cc_letter cc] ++ rs ++ s ++ throw_code ne, G2).
End Enc.

(** The qualifiers of a scalar or class are encoded by the context. *)
Fixpoint enc (t : ty) (G : tab) {struct t} : str * tab :=
  match t with
  | TPrim _ k => (prim_code k, G)
  | TTag _ k n => let '(s, G1) := enc_name n G in (tag_code k ++ s, G1)
  | TPtr q a None (TFun q' cc rq r ps v ne) =>
    let '(s, G1) := enc_fn enc false q' cc rq r ps v ne G in (ptr_letter q a ++ L "6" ++ s, G1)
  | TPtr q a (Some n) (TFun q' cc rq r ps v ne) =>
    let '(s, G1) := enc_name n G in let '(s', G2) := enc_fn enc true q' cc rq r ps v ne G1 in (ptr_letter q a ++ L "8" ++ s ++ s', G2)
  | TPtr q a None p =>
    let '(s, G1) := enc p G in (ptr_letter q a ++ ext_letters q ++ cv_letter false (quals p) :: s, G1)
  | TPtr q a (Some n) p =>
    let '(s, G1) := enc_name n G in let '(s', G2) := enc p G1 in
    (ptr_letter q a ++ ext_letters q ++ [cv_letter true (quals p)] ++ s ++ s', G2)
  | TArr q ds e =>
    let '(s, G1) := enc e G in
    (L "Y" ++ encode_number (N.of_nat (length ds)) ++ concat (map encode_number ds) ++
     opt (negb (q =? Q_None)%N) (L "$$C" ++ [cv_letter false q]) ++ s, G1)
  | TFun q cc rq r ps v ne => let '(s, G1) := enc_fn enc true q cc rq r ps v ne G in (L "$$A8@@" ++ s, G1)
  | TCustom _ _ => ([], G)
  end.

(** Declarations: the name [x] in the scopes [cs], innermost first. *)
Definition storage_letter (a : option access) : N :=
  match a with Some Private => ch "0" | Some Protected => ch "1" | Some Public => ch "2" | None => ch "3" end.
Definition mangle_variable (a : option access) (cs : list str) (x : str) (t : ty) : str :=
  let '(c, G) := enc_chain cs (remember x empty_tab) in
  let '(s, G1) := enc t G in
  L "?" ++ (x ++ L "@") ++ c ++ [storage_letter a] ++ s ++
  match t with
  | TPtr q _ None p => ext_letters q ++ [cv_letter false (quals p)]
  | TPtr q _ (Some n) p => ext_letters q ++ [cv_letter true (quals p)] ++ fst (enc_name n G1)
  | _ => [cv_letter false (quals t)]
  end.
(** The class letter, the extern "C" marker and any adjustment come from [class_code]. *)
Definition mangle_function (externc : bool) (ct : str) (this : bool) (cs : list str) (x : str) (t : ty) : str :=
  let '(c, G) := enc_chain cs (remember x empty_tab) in
  L "?" ++ (x ++ L "@") ++ c ++ opt externc (L "$$J0") ++ ct ++
  match t with TFun q cc rq r ps v ne => fst (enc_fn enc this q cc rq r ps v ne G) | _ => [] end.

(** ** Proof *)
Section TyInd.
  Variable P : ty -> Prop.
  Let ret_ok (r : option ty) : Prop := match r with Some r => P r | None => True end.
  Let params_ok (ps : option (list ty)) : Prop := match ps with Some l => Forall P l | None => True end.
  Hypothesis Hprim : forall q k, P (TPrim q k).
  Hypothesis Htag : forall q k n, P (TTag q k n).
  Hypothesis Hptr : forall q a c p, P p -> P (TPtr q a c p).
  Hypothesis Harr : forall q d e, P e -> P (TArr q d e).
  Hypothesis Hfun : forall q cc rq r ps v ne, ret_ok r -> params_ok ps -> P (TFun q cc rq r ps v ne).
  Hypothesis Hcus : forall q x, P (TCustom q x).
  Fixpoint ty_ind' (t : ty) : P t :=
    match t with
    | TPrim q k => Hprim q k
    | TTag q k n => Htag q k n
    | TPtr q a c p => Hptr q a c p (ty_ind' p)
    | TArr q d e => Harr q d e (ty_ind' e)
    | TFun q cc rq r ps v ne =>
      Hfun q cc rq r ps v ne
        (match r as o return ret_ok o with Some r => ty_ind' r | None => I end)
        (match ps as o return params_ok o with
         | Some l => (fix go l : Forall P l := match l with [] => Forall_nil P | t :: l => Forall_cons t (ty_ind' t) (go l) end) l
         | None => I
         end)
    | TCustom q x => Hcus q x
    end.
End TyInd.

Lemma forall2b_eq {A} (p : A -> A -> bool) : (forall x y, p x y = true -> x = y) -> forall l m, forall2b p l m = true -> l = m.
Proof.
  intros H. induction l as [|x l IH]; intros [|y m] Hl; cbn in Hl; try discriminate; [reflexivity|].
  apply andb_prop in Hl. destruct Hl as [H1 H2]. f_equal; [apply H; exact H1|apply IH; exact H2].
Qed.
Lemma optb_eq {A} (p : A -> A -> bool) : (forall x y, p x y = true -> x = y) -> forall a b, optb p a b = true -> a = b.
Proof. intros H [x|] [y|] Hl; cbn in Hl; try discriminate; [f_equal; apply H; exact Hl|reflexivity]. Qed.
Lemma ty_eqb_eq s : forall t, ty_eqb s t = true -> s = t.
Proof.
  assert (Hs : forall x y, str_eqb x y = true -> x = y) by (intros x y; apply str_eqb_iff).
  induction s using ty_ind'; intros [] Hb; cbn in Hb; try discriminate; repeat (apply andb_prop in Hb; destruct Hb as [Hb ?]);
    repeat match goal with H : (_ =? _)%N = true |- _ => apply N.eqb_eq in H | H : Bool.eqb _ _ = true |- _ => apply Bool.eqb_prop in H end; subst.
  - f_equal. destruct k, k0; try discriminate; reflexivity.
  - f_equal; [destruct k, t; try discriminate; reflexivity|]. eapply forall2b_eq; [exact Hs|eassumption].
  - f_equal; [destruct a, a0; try discriminate; reflexivity| |auto]. eapply optb_eq; [|eassumption]. apply forall2b_eq. exact Hs.
  - f_equal; [|auto]. eapply forall2b_eq; [|eassumption]. intros x y. apply N.eqb_eq.
  - f_equal.
    + eapply optb_eq; [|eassumption]. intros [] []; try discriminate; reflexivity.
    + eapply optb_eq; [|eassumption]. intros [] []; try discriminate; reflexivity.
    + destruct r, ret; try discriminate; [|reflexivity]. f_equal. auto.
    + destruct ps as [l|], params as [l'|]; try discriminate; [|reflexivity]. f_equal.
      clear - H0 H3. rename H3 into Hb. revert l' Hb. induction H0 as [|x l Hx _ IH]; intros [|y l'] Hb; cbn in Hb; try discriminate; [reflexivity|].
      apply andb_prop in Hb. destruct Hb. f_equal; auto.
  - f_equal. auto.
Qed.
Lemma find_spec {A} (p : A -> bool) (l : list A) : forall i j, find p l i = Some j -> i <= j /\ exists x, nth_error l (j - i) = Some x /\ p x = true.
Proof.
  induction l as [|x l IH]; intros i j H; cbn in H; [discriminate|]. destruct (p x) eqn:Hp.
  - injection H as <-. split; [lia|]. exists x. rewrite Nat.sub_diag. auto.
  - apply IH in H. destruct H as (H1 & y & H2 & H3). split; [lia|]. exists y. replace (j - i) with (S (j - S i)) by lia. auto.
Qed.

Section Encoder.
  Variable E : env.
  Notation rd_ R p x := (R (fst p) x (snd p)).

  Lemma enc_piece_ok x G : ident x -> piece E G (fst (enc_piece x G)) x (snd (enc_piece x G)) /\ tname E G (fst (enc_piece x G)) x (snd (enc_piece x G)).
  Proof.
    intros Hx. unfold enc_piece. destruct (find (str_eqb x) (fst G) 0) as [i|] eqn:Hf; [|split; constructor; exact Hx].
    destruct (Nat.ltb_spec i 10) as [Hi|Hi]; [|split; constructor; exact Hx].
    apply find_spec in Hf. destruct Hf as (_ & y & Hy & He). rewrite Nat.sub_0_r in Hy. apply str_eqb_iff in He. subst y.
    split; constructor; assumption.
  Qed.
  Lemma enc_chain_ok xs : forall G, Forall ident xs -> chain E G (fst (enc_chain xs G)) (rev xs) (snd (enc_chain xs G)).
  Proof.
    induction xs as [|x xs IH]; intros G H; cbn [enc_chain rev]; [apply ch_end|]. inversion H as [|? ? H1 H2]; subst.
    destruct (enc_piece_ok x G H1) as [Hp _]. destruct (enc_piece x G) as [t G1]. specialize (IH G1 H2). destruct (enc_chain xs G1) as [t' G2]. cbn [fst snd] in *.
    eapply ch_cons; eassumption.
  Qed.
  Lemma enc_name_ok n G : name_ok n -> qname E G (fst (enc_name n G)) n (snd (enc_name n G)).
  Proof.
    intros [Hn Hi]. unfold enc_name. rewrite <- (rev_involutive n) at 2. apply Forall_rev in Hi. destruct (rev n) as [|x xs] eqn:Hr.
    - apply (f_equal (@rev str)) in Hr. rewrite rev_involutive in Hr. cbn in Hr. congruence.
    - inversion Hi as [|? ? H1 H2]; subst. cbn [enc_chain rev]. destruct (enc_piece_ok x G H1) as [_ Hp]. destruct (enc_piece x G) as [t G1].
      pose proof (enc_chain_ok xs G1 H2) as Hc. destruct (enc_chain xs G1) as [t' G2]. cbn [fst snd] in *. eapply qn_intro; eassumption.
  Qed.

  (** The type without the qualifiers its context encodes. *)
  Definition strip (t : ty) : ty := match t with TPrim _ k => TPrim Q_None k | TTag _ k n => TTag Q_None k n | _ => t end.
  Lemma strip_unqualified t : unqualified t -> strip t = t.
  Proof. destruct t; cbn; congruence. Qed.
  Lemma part_bit q m i : N.testbit q i = false -> N.testbit (if contains q m then m else Q_None) i = false.
  Proof.
    intros Hq. unfold contains. destruct (N.eqb_spec (N.land q m) m) as [Hm|]; [|apply N.bits_0]. rewrite <- Hm, N.land_spec, Hq. reflexivity.
  Qed.
  Lemma lor_sub q : N.lor q (cv_part q) = q.
  Proof.
    apply N.bits_inj. intros i. rewrite N.lor_spec. destruct (N.testbit q i) eqn:Hq; [reflexivity|]. unfold cv_part, cvq, is_const, is_volatile.
    rewrite N.lor_spec, !part_bit by exact Hq. reflexivity.
  Qed.
  Lemma lor_ext q : N.lor q (ext_part q) = q.
  Proof.
    apply N.bits_inj. intros i. rewrite N.lor_spec. destruct (N.testbit q i) eqn:Hq; [reflexivity|]. unfold ext_part, extq, is_ptr64, is_restrict, is_unaligned.
    rewrite !N.lor_spec, !part_bit by exact Hq. reflexivity.
  Qed.
  Lemma add_strip t : type_ok t -> add_quals (cv_part (quals t)) (strip t) = t.
  Proof.
    destruct t; cbn; intros H; rewrite ?lor_sub; try reflexivity.
    - change (N.lor Q_None (cv_part q)) with (cv_part q). rewrite <- H. reflexivity.
    - destruct H as [H _]. change (N.lor Q_None (cv_part q)) with (cv_part q). rewrite <- H. reflexivity.
  Qed.
  Lemma replace_strip t : quals t = cv_part (quals t) -> replace_quals (cv_part (quals t)) (strip t) = t.
  Proof. intros H. rewrite <- H. destruct t; reflexivity. Qed.

  Lemma ptr_letter_ok q a cls : (a = APointer \/ cv_part q = Q_None /\ cls = @None (list str)) -> pointer_code (ptr_letter q a) (cv_part q) a.
  Proof.
    intros H. destruct a; cbn [ptr_letter]; [apply pk_pointer| |]; destruct H as [H|[H _]]; try discriminate; rewrite H; constructor.
  Qed.
  Lemma cc_letter_ok cc : cc <> None -> cc_code (cc_letter cc) cc.
  Proof. destruct cc as [c|]; [|congruence]. intros _. apply cc_known. destruct c; cbn; auto. Qed.
  Lemma ref_letter_ok rq : ref_code (ref_letter rq) rq.
  Proof. destruct rq as [[]|]; constructor. Qed.
  Lemma pointer_first pt q a r rr : pointer_code pt q a -> pt ++ r = ch "?" :: rr \/ pt ++ r = ch "X" :: rr -> False.
  Proof. intros H. destruct H; [destruct c, v|..]; intros [Hr|Hr]; discriminate. Qed.
  Lemma first_not_body G t y G' : body E G t y G' -> (forall q x, y <> TCustom q x) -> first_is_not "?"%char t.
  Proof.
    intros H. destruct H; intros Hy rr Hrr; try (destruct k; discriminate); try discriminate;
      try (eapply pointer_first; [eassumption|eauto]).
    exfalso. exact (Hy _ _ eq_refl).
  Qed.
  Lemma first_not_X G t y G' : body E G t y G' -> y <> TPrim Q_None Void -> first_is_not "X"%char t.
  Proof.
    intros H. destruct H; intros Hy rr Hrr; try (destruct k; try discriminate; congruence); try discriminate;
      try (eapply pointer_first; [eassumption|eauto]).
  Qed.
  Lemma body_nonempty' G t y G' : body E G t y G' -> t <> [].
  Proof. intros H. destruct H; try discriminate; try (destruct k; discriminate); destruct H; discriminate. Qed.

  Definition enc_ok (t : ty) : Prop := type_ok t ->
    (forall G, body E G (fst (enc t G)) (strip t) (snd (enc t G))) /\
    match t with
    | TFun q cc rq r ps v ne => forall this G, (this = false -> q = Q_None /\ rq = None) ->
        fn E this G (fst (enc_fn enc this q cc rq r ps v ne G)) t (snd (enc_fn enc this q cc rq r ps v ne G))
    | _ => True
    end.
  Lemma enc_param_ok t G : (forall G, body E G (fst (enc t G)) t (snd (enc t G))) ->
    param E G (fst (enc_param enc t G)) t (snd (enc_param enc t G)) /\
    (t <> TPrim Q_None Void -> forall r, first_is_not "X"%char (fst (enc_param enc t G) ++ r)).
  Proof.
    intros H. specialize (H G). unfold enc_param.
    assert (Hb : param E G (fst (let '(s, G1) := enc t G in (s, if 1 <? length s then remember_param t G1 else G1))) t
        (snd (let '(s, G1) := enc t G in (s, if 1 <? length s then remember_param t G1 else G1))) /\
        (t <> TPrim Q_None Void -> forall r, first_is_not "X"%char (fst (let '(s, G1) := enc t G in (s, if 1 <? length s then remember_param t G1 else G1)) ++ r))).
    { destruct (enc t G) as [s G1]. cbn [fst snd] in *. pose proof (body_nonempty' _ _ _ _ H) as Hn. split.
      - destruct (Nat.ltb_spec 1 (length s)); [apply pa_long; assumption|apply pa_short; [assumption|]]. destruct s; [congruence|]. cbn in *. lia.
      - intros Hv r r' Hr. destruct s as [|c s]; [congruence|]. injection Hr as -> _. exact (first_not_X _ _ _ _ H Hv _ eq_refl). }
    destruct (find (ty_eqb t) (snd G) 0) as [i|] eqn:Hf; [|exact Hb].
    destruct (Nat.ltb_spec i 10) as [Hi|Hi]; [|exact Hb]. split.
    - apply find_spec in Hf. destruct Hf as (_ & y & Hy & He). rewrite Nat.sub_0_r in Hy. apply ty_eqb_eq in He. subst y. apply pa_ref; assumption.
    - intros _ r r' Hr. injection Hr as Hr _. revert Hr. unfold digit_char. change (ch "0") with 48%N. change (ch "X") with 88%N. lia.
  Qed.
  Lemma enc_params_ok l : forall G, Forall enc_ok l -> all_types (fun p => type_ok p /\ unqualified p /\ p <> TPrim Q_None Void) l ->
    params E G (fst (enc_params enc l G)) l (snd (enc_params enc l G)) /\ (forall r, first_is_not "X"%char r -> first_is_not "X"%char (fst (enc_params enc l G) ++ r)).
  Proof.
    induction l as [|t l IH]; intros G Hl Ht; cbn [enc_params].
    - split; [apply ps_nil|]. cbn [fst app]. auto.
    - inversion Hl as [|? ? H1 H2]; subst. destruct Ht as [(Ha & Hb & Hc) Ht]. destruct (H1 Ha) as [H1' _]. rewrite (strip_unqualified _ Hb) in H1'.
      destruct (enc_param_ok t G H1') as [Hp Hx]. fold (enc_params enc). destruct (enc_param enc t G) as [s G1]. cbn [fst snd] in Hp, Hx.
      destruct (IH G1 H2 Ht) as [Hps _]. destruct (enc_params enc l G1) as [s' G2]. cbn [fst snd] in *. split; [eapply ps_cons; eassumption|].
      intros r _. rewrite <- app_assoc. apply Hx. exact Hc.
  Qed.
  Lemma enc_ret_ok r G : match r with Some r => enc_ok r /\ type_ok r | None => True end -> rett E G (fst (enc_ret enc r G)) r (snd (enc_ret enc r G)).
  Proof.
    destruct r as [r|]; intros H; cbn [enc_ret]; [|apply re_none]. destruct H as [H Ht]. destruct (H Ht) as [Hb _]. specialize (Hb G). pose proof (add_strip r Ht) as Ha.
    destruct (enc r G) as [s G1]. cbn [fst snd] in *.
    assert (Hplain : strip r = r -> (forall q x, r <> TCustom q x) -> rett E G s (Some r) G1).
    { intros He Hc. rewrite He in Hb. apply re_some, rt_plain; [exact Hb|]. eapply first_not_body; eassumption. }
    assert (Hq : rett E G (L "?" ++ [cv_letter false (quals r)] ++ s) (Some r) G1).
    { apply re_some. pose proof (rt_quals E false (is_const (quals r)) (is_volatile (quals r)) G s (strip r) G1 Hb) as Hr. unfold cv_part in Ha. rewrite Ha in Hr. exact Hr. }
    destruct r; cbn [fst snd quals] in *; try (apply Hplain; [reflexivity|discriminate]); try contradiction.
    - destruct (N.eqb_spec q Q_None) as [->|Hn]; cbn [negb opt app]; [apply Hplain; [reflexivity|discriminate]|exact Hq].
    - exact Hq.
  Qed.
  Lemma enc_fn_ok this q cc rq r ps v ne G :
    q = N.lor (ext_part q) (cv_part q) -> cc <> None -> (this = false -> q = Q_None /\ rq = None) ->
    match r with Some r => enc_ok r /\ type_ok r | None => True end ->
    match ps with
    | None => v = false
    | Some l => Forall enc_ok l /\ all_types (fun p => type_ok p /\ unqualified p /\ p <> TPrim Q_None Void) l
    end ->
    fn E this G (fst (enc_fn enc this q cc rq r ps v ne G)) (TFun q cc rq r ps v ne) (snd (enc_fn enc this q cc rq r ps v ne G)).
  Proof.
    intros Hq Hc Hthis Hr Hps. unfold enc_fn. pose proof (enc_ret_ok r G Hr) as Hret. destruct (enc_ret enc r G) as [rs G1]. cbn [fst snd] in Hret.
    assert (Hth : this_code this (if this then this_letters q rq else []) q rq).
    { destruct this; [|destruct (Hthis eq_refl) as [-> ->]; apply th_none]. unfold this_letters. rewrite Hq at 3. apply th_quals. apply ref_letter_ok. }
    assert (Hpl : exists s G2, match ps with None => (L "X", G1) | Some l => let '(s, G2) := enc_params enc l G1 in (s ++ (if v then L "Z" else L "@"), G2) end = (s, G2) /\
      plist E G1 s ps v G2).
    { destruct ps as [l|]; [|subst v; eexists _, _; split; [reflexivity|apply pl_void]]. destruct Hps as [H1 H2].
      destruct (enc_params_ok l G1 H1 H2) as [Hp Hx]. destruct (enc_params enc l G1) as [s G2]. eexists _, _. split; [reflexivity|]. cbn [fst snd] in *.
      specialize (Hx [] ltac:(intros ? ?; discriminate)). rewrite app_nil_r in Hx. destruct v; [apply pl_variadic|apply pl_fixed]; assumption. }
    destruct Hpl as (s & G2 & -> & Hpl). cbn [fst snd]. eapply fn_intro; [exact Hth|apply cc_letter_ok; exact Hc|exact Hret|exact Hpl].
  Qed.

  Theorem enc_all t : enc_ok t.
  Proof.
    induction t as [q k|q k n|q a c p IH|q d e IH|q cc rq r ps v ne IHr IHps|q x] using ty_ind'; intros Hok.
    - split; [|exact I]. intros G. apply bo_prim.
    - split; [|exact I]. destruct Hok as [_ Hn]. intros G. cbn [enc strip]. pose proof (enc_name_ok n G Hn) as H. destruct (enc_name n G) as [s G1]. apply bo_tag. exact H.
    - split; [|exact I]. destruct Hok as (Hp & Ha & Hq & Hc). destruct (IH Hp) as [Hb Hf]. pose proof (ptr_letter_ok q a c Ha) as Hl. intros G.
      destruct (is_fun p) eqn:Hif.
      + destruct p; try discriminate. assert (Hcv : q = cv_part q) by (rewrite Hq at 1; rewrite N.lor_0_r; reflexivity).
        destruct c as [n|]; cbn [enc strip].
        * destruct Hc as [Hn _]. pose proof (enc_name_ok n G Hn) as Hnm. destruct (enc_name n G) as [s G1]. cbn [fst snd] in Hnm.
          specialize (Hf true G1 ltac:(discriminate)). destruct (enc_fn _ _ _ _ _ _ _ _ _ G1) as [s' G2]. cbn [fst snd] in *.
          assert (a = APointer) as -> by (destruct Ha as [|[_ Ha]]; [assumption|discriminate]).
          rewrite Hcv at 2. eapply bo_member_fn_pointer; eassumption.
        * specialize (Hf false G ltac:(auto)). destruct (enc_fn _ _ _ _ _ _ _ _ _ G) as [s' G2]. cbn [fst snd] in *.
          rewrite Hcv at 2. eapply bo_fn_pointer; eassumption.
      + destruct c as [n|].
        * destruct Hc as [Hn [Hc|Hc]]; [congruence|]. pose proof (enc_name_ok n G Hn) as Hnm.
          assert (He : enc (TPtr q a (Some n) p) G = (let '(s, G1) := enc_name n G in let '(s', G2) := enc p G1 in (ptr_letter q a ++ ext_letters q ++ [cv_letter true (quals p)] ++ s ++ s', G2))) by (destruct p; try reflexivity; discriminate).
          rewrite He. destruct (enc_name n G) as [s G1]. cbn [fst snd] in Hnm. specialize (Hb G1). destruct (enc p G1) as [s' G2]. cbn [fst snd strip] in *.
          assert (a = APointer) as -> by (destruct Ha as [|[_ Ha]]; [assumption|discriminate]).
          rewrite Hq at 3. rewrite <- (replace_strip p Hc) at 2. eapply bo_member_pointer; eassumption.
        * assert (He : enc (TPtr q a None p) G = (let '(s, G1) := enc p G in (ptr_letter q a ++ ext_letters q ++ cv_letter false (quals p) :: s, G1))) by (destruct p; try reflexivity; discriminate).
          rewrite He. specialize (Hb G). destruct (enc p G) as [s G1]. cbn [fst snd strip] in *.
          rewrite Hq at 3. apply bo_pointer; [exact Hl|]. rewrite <- (add_strip p Hp) at 2. apply mt_intro. exact Hb.
    - split; [|exact I]. destruct Hok as (Hq & Hd & Hds & Hlen & He & Hu). destruct (IH He) as [Hb _]. intros G. cbn [enc strip]. specialize (Hb G).
      destruct (enc e G) as [s G1]. cbn [fst snd] in *. rewrite (strip_unqualified _ Hu) in Hb.
      destruct (N.eqb_spec q Q_None) as [->|Hn]; cbn [negb opt].
      + apply bo_array; [apply encode_number_text; exact Hlen|exact Hd|apply dims_encode; exact Hds|exact Hb].
      + rewrite Hq at 2. rewrite <- (app_assoc (L "$$C")). apply bo_array_cv; [apply encode_number_text; exact Hlen|exact Hd|apply dims_encode; exact Hds|exact Hb].
    - destruct Hok as (Hq & Hc & Hr & Hps).
      assert (Hf : forall this G, (this = false -> q = Q_None /\ rq = None) ->
        fn E this G (fst (enc_fn enc this q cc rq r ps v ne G)) (TFun q cc rq r ps v ne) (snd (enc_fn enc this q cc rq r ps v ne G))).
      { intros this G Hthis. apply enc_fn_ok; auto; [destruct r; auto|destruct ps; auto]. }
      split; [|exact Hf]. intros G. cbn [enc strip]. specialize (Hf true G ltac:(discriminate)). destruct (enc_fn _ _ _ _ _ _ _ _ _ G) as [s G1]. cbn [fst snd] in *.
      apply bo_member_fn. exact Hf.
    - contradiction.
  Qed.
End Encoder.

(** ** C24, C25 *)
Lemma storage_letter_ok a : storage_code (storage_letter a) a.
Proof. destruct a as [[]|]; constructor. Qed.
Theorem variable_round_trip : forall (E : env) (a : option access) (cs : list str) (x : str) (t : ty),
  Forall ident (x :: cs) -> type_ok t -> is_fun t = false ->
  demangles_to E (mangle_variable a cs x t) (show_variable E a t (qualified (rev cs ++ [x]))).
Proof.
  intros E a cs x t Hx Ht Hf. inversion Hx as [|? ? H1 H2]; subst. unfold mangle_variable.
  pose proof (enc_chain_ok (code_limits E) cs (remember x empty_tab) H2) as Hc. destruct (enc_chain cs (remember x empty_tab)) as [c G]. cbn [fst snd] in Hc.
  destruct (enc_all (code_limits E) t Ht) as [Hb _]. specialize (Hb G). destruct (enc t G) as [s G1] eqn:Henc. cbn [fst snd] in Hb.
  assert (Hv : exists v G', variable (code_limits E) G v a t G' /\ [storage_letter a] ++ s ++
    match t with
    | TPtr q _ None p => ext_letters q ++ [cv_letter false (quals p)]
    | TPtr q _ (Some n) p => ext_letters q ++ [cv_letter true (quals p)] ++ fst (enc_name n G1)
    | _ => [cv_letter false (quals t)]
    end = v).
  { destruct t as [q k|q k n|q k [n|] p|q d e|q cc rq r ps v ne|q y]; try discriminate; try contradiction.
    - eexists _, G1. split; [|reflexivity]. rewrite <- (replace_strip (TPrim q k) Ht) at 2. apply va_plain; [apply storage_letter_ok|exact Hb|discriminate].
    - eexists _, G1. split; [|reflexivity]. rewrite <- (replace_strip (TTag q k n) (proj1 Ht)) at 2. apply va_plain; [apply storage_letter_ok|exact Hb|discriminate].
    - destruct Ht as (Hp & Ha & Hq & Hn & Hpq). pose proof (enc_name_ok (code_limits E) n G1 Hn) as Hnm.
      eexists _, _. split; [|reflexivity]. cbn [strip] in Hb.
      pose proof (va_member_pointer (code_limits E) G (storage_letter a) a s q k n p G1 (is_ptr64 q) (is_restrict q) (is_unaligned q) true (is_const (quals p)) (is_volatile (quals p))
        _ n _ (storage_letter_ok a) Hb Hnm) as Hv.
      assert (Hpp : add_quals (cvq (is_const (quals p)) (is_volatile (quals p))) p = p). { fold (cv_part (quals p)). destruct p; cbn; rewrite lor_sub; reflexivity. }
      rewrite Hpp in Hv. fold (ext_part q) in Hv. rewrite lor_ext in Hv. exact Hv.
    - eexists _, G1. split; [|reflexivity]. cbn [strip] in Hb.
      pose proof (va_pointer (code_limits E) G (storage_letter a) a s q k p G1 (is_ptr64 q) (is_restrict q) (is_unaligned q) false (is_const (quals p)) (is_volatile (quals p))
        (storage_letter_ok a) Hb) as Hv.
      assert (Hpp : add_quals (cvq (is_const (quals p)) (is_volatile (quals p))) p = p). { fold (cv_part (quals p)). destruct p; cbn; rewrite lor_sub; reflexivity. }
      rewrite Hpp in Hv. fold (ext_part q) in Hv. rewrite lor_ext in Hv. exact Hv.
    - eexists _, G1. split; [|reflexivity]. rewrite <- (replace_strip (TArr q d e) (proj1 Ht)) at 2. apply va_plain; [apply storage_letter_ok|exact Hb|discriminate]. }
  destruct Hv as (v & G' & Hv & ->).
  pose proof (sy_variable (code_limits E) empty_tab (x ++ L "@") (IText x) _ c (rev cs) _ v a t G' x (us_base _ _ _ _ _ (ub_name empty_tab x H1)) Hc Hv (it_text _ _ _ _)) as Hs.
  apply symbol_demangles in Hs. exact Hs.
Qed.
Theorem function_round_trip : forall (E : env) (externc : bool) (ct : str) (k : fn_class) (a : adjustment) (this : bool) (cs : list str) (x : str)
    (q : N) (cc : option call_conv) (rq : option ref_qual) (r : option ty) (ps : option (list ty)) (v ne : bool),
  let t := TFun q cc rq r ps v ne in
  class_code externc ct k a this -> Forall ident (x :: cs) -> type_ok t -> (this = false -> q = Q_None /\ rq = None) ->
  demangles_to E (mangle_function externc ct this cs x t) (show_function E k a (Some t) (qualified (rev cs ++ [x]))).
Proof.
  intros E externc ct k a this cs x q cc rq r ps v ne t Hk Hx Ht Hthis. inversion Hx as [|? ? H1 H2]; subst. unfold mangle_function.
  pose proof (enc_chain_ok (code_limits E) cs (remember x empty_tab) H2) as Hc. destruct (enc_chain cs (remember x empty_tab)) as [c G]. cbn [fst snd] in Hc.
  destruct (enc_all (code_limits E) t Ht) as [_ Hf]. cbn in Hf. specialize (Hf this G Hthis). unfold t. destruct (enc_fn enc this q cc rq r ps v ne G) as [s G1]. cbn [fst snd] in *.
  pose proof (fu_typed (code_limits E) externc G ct k a this s t G1 Hk Hf) as Hfu.
  pose proof (sy_function (code_limits E) empty_tab (x ++ L "@") (IText x) _ c (rev cs) _ _ k a (Some t) G1 x (us_base _ _ _ _ _ (ub_name empty_tab x H1)) Hc Hfu (it_text _ _ _ _)) as Hs.
  apply symbol_demangles in Hs. exact Hs.
Qed.
Print Assumptions variable_round_trip.
Print Assumptions function_round_trip.
(** Non-vacuity: a static member pointing to a function with a repeated parameter type. *)
Definition sample_type : ty :=
  let s := TPtr Q_None AReference None (TTag Q_Const TKStruct [L "ns"; L "S"]) in
  TPtr Q_None APointer None (TFun Q_None (Some Stdcall) None (Some (TPtr Q_None APointer None (TPrim Q_Const Char)))
    (Some [s; TPtr Q_Const APointer None (TPrim Q_Volatile Int); s]) true false).
Ltac idents := repeat (constructor; [split; [repeat constructor|split; [cbn; intuition discriminate|split; [reflexivity|discriminate]]]|]); constructor.
Example sample_ok : type_ok sample_type /\ is_fun sample_type = false /\ Forall ident [L "x"; L "C"; L "ns"] /\
  mangle_variable (Some Public) [L "C"; L "ns"] (L "x") sample_type = L "?x@C@ns@@2P6GPBDABUS@2@QCH0ZZA" /\
  demangle (env_of 0) (mangle_variable (Some Public) [L "C"; L "ns"] (L "x") sample_type) =
    Ok (L "public: static char const * (__stdcall *ns::C::x)(struct ns::S const &, int volatile *const, struct ns::S const &, ...)").
Proof.
  split; [|split; [reflexivity|split; [idents|split; vm_compute; reflexivity]]].
  assert (Hn : name_ok [L "ns"; L "S"]) by (split; [discriminate|idents]).
  repeat split; try discriminate; auto; apply Hn.
Qed.
Example sample_function_ok : let t := TFun Q_Const (Some Thiscall) (Some RQReference) (Some (TPrim Q_None Int)) (Some [sample_type; sample_type]) false true in
  type_ok t /\ class_code false (L "U") (FnClass (Some Public) false true false) NoAdjustment true /\
  mangle_function false (L "U") true [L "C"] (L "f") t = L "?f@C@@UGBEHP6GPBDABUS@ns@@QCH0ZZ2@_E".
Proof.
  cbv zeta. split; [|split; [apply (cl_virtual false Public false)|vm_compute; reflexivity]].
  pose proof (proj1 sample_ok) as Hs. split; [reflexivity|]. split; [discriminate|]. split; [reflexivity|]. 
  split; [split; [exact Hs|split; [exact I|discriminate]]|]. split; [split; [exact Hs|split; [exact I|discriminate]]|exact I].
Qed.
