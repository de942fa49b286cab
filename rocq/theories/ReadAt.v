(** Reading the codes of the grammar.  Proof infrastructure of the round trip. *)
From Verif Require Import Parser Utf8 Show Den Grammar Lex Step Number.

Section ReadAt.
  Variables (sg : store) (f n : list handle).
  Notation at' t := (at_ t sg f n).

  Lemma quals_at m c v t : demangle_qualifiers (at' (cv_code m c v :: t)) = Ok ((cvq c v, m), at' t).
  Proof. unfold demangle_qualifiers. rewrite (bind_eq _ _ _ _ _ (next_at _ _ _ _ _ _)). destruct m, c, v; reflexivity. Qed.

  (** No extended qualifier follows. *)
  Definition no_ext (t : str) : bool := negb (first_is (one_of (L "EIF")) t).
  Lemma no_ext_starts t a : In a (L "EIF") -> no_ext t = true -> starts a t = false.
  Proof.
    unfold no_ext, first_is, starts. destruct t as [|x t]; [reflexivity|]. cbn [first_char]. intros Ha H.
    apply negb_true_iff in H. destruct (N.eqb_spec x a) as [->|]; [|reflexivity].
    cbn in Ha. destruct Ha as [<-|[<-|[<-|[]]]]; discriminate.
  Qed.
  Lemma ext_at p r u t : no_ext t = true -> pointer_ext_qualifiers (at' (ext_code p r u ++ t)) = Ok (extq p r u, at' t).
  Proof.
    intros H. unfold pointer_ext_qualifiers, ext_code. rewrite <- !app_assoc.
    assert (HE : eat_char (ch "E") (at' (opt p (L "E") ++ opt r (L "I") ++ opt u (L "F") ++ t)) = Ok (p, at' (opt r (L "I") ++ opt u (L "F") ++ t))).
    { destruct p; [apply eat_yes|]. apply eat_no. destruct r; [reflexivity|]. destruct u; [reflexivity|]. apply no_ext_starts; [cbn; auto|exact H]. }
    rewrite (bind_eq _ _ _ _ _ HE).
    assert (HI : eat_char (ch "I") (at' (opt r (L "I") ++ opt u (L "F") ++ t)) = Ok (r, at' (opt u (L "F") ++ t))).
    { destruct r; [apply eat_yes|]. apply eat_no. destruct u; [reflexivity|]. apply no_ext_starts; [cbn; auto|exact H]. }
    rewrite (bind_eq _ _ _ _ _ HI).
    assert (HF : eat_char (ch "F") (at' (opt u (L "F") ++ t)) = Ok (u, at' t)).
    { destruct u; [apply eat_yes|]. apply eat_no. apply no_ext_starts; [cbn; auto|exact H]. }
    rewrite (bind_eq _ _ _ _ _ HF). destruct p, r, u; reflexivity.
  Qed.
  Lemma cv_no_ext m c v t : no_ext (cv_code m c v :: t) = true.
  Proof. destruct m, c, v; reflexivity. Qed.

  Lemma pcv_at pt q a t : pointer_code pt q a -> demangle_pointer_cv_qualifiers (at' (pt ++ t)) = Ok ((q, a), at' t).
  Proof. intros []; [destruct c, v| |]; reflexivity || (cbn; rewrite ?Nat.sub_0_r; reflexivity). Qed.

  Lemma ref_at rt rq t : ref_code rt rq -> first_is (one_of (L "GH")) t = false ->
    demangle_function_ref_qualifier (at' (rt ++ t)) = Ok (rq, at' t).
  Proof.
    intros Hr Ht. unfold demangle_function_ref_qualifier. destruct Hr.
    - assert (Hs : forall a, In a (L "GH") -> starts a t = false).
      { intros a Ha. unfold first_is, starts in *. destruct t as [|x t]; [reflexivity|]. cbn [first_char] in Ht.
        destruct (N.eqb_spec x a) as [->|]; [|reflexivity]. cbn in Ha. destruct Ha as [<-|[<-|[]]]; discriminate. }
      cbn [app]. rewrite (bind_eq _ _ _ _ _ (eat_no _ _ _ _ _ (Hs (ch "G") ltac:(cbn; auto)))).
      rewrite (bind_eq _ _ _ _ _ (eat_no _ _ _ _ _ (Hs (ch "H") ltac:(cbn; auto)))). reflexivity.
    - change (L "G" ++ t) with (ch "G" :: t). rewrite (bind_eq _ _ _ _ _ (eat_yes _ _ _ _ _)). reflexivity.
    - change (L "H" ++ t) with (ch "H" :: t). rewrite (bind_eq _ _ _ _ _ (eat_no (ch "G") (ch "H" :: t) _ _ _ eq_refl)).
      rewrite (bind_eq _ _ _ _ _ (eat_yes _ _ _ _ _)). reflexivity.
  Qed.

  Lemma lookup_none {A} c (l : list (N * A)) : ~ In c (map fst l) -> lookup c l = None.
  Proof.
    induction l as [|[k v] l IH]; [reflexivity|]. cbn. intros H. destruct (N.eqb_spec k c) as [->|]; [tauto|].
    try (destruct (N.eqb_spec c k) as [->|]; [tauto|]). apply IH. tauto.
  Qed.
  Lemma cc_at l cc t : cc_code l cc -> demangle_calling_convention (at' (l :: t)) = Ok (cc, at' t).
  Proof.
    intros H. unfold demangle_calling_convention. rewrite (bind_eq _ _ _ _ _ (next_at _ _ _ _ _ _)). unfold ret. do 2 f_equal.
    destruct H as [l c H|l H].
    - destruct c; cbn in H; repeat (destruct H as [<-|H]; [reflexivity|]); contradiction.
    - f_equal. apply lookup_none. intros Hin. cbn in Hin.
      repeat (destruct Hin as [<-|Hin]; [first [eapply (H Cdecl); cbn; tauto|eapply (H Pascal); cbn; tauto|eapply (H Thiscall); cbn; tauto|
        eapply (H Stdcall); cbn; tauto|eapply (H Fastcall); cbn; tauto|eapply (H Clrcall); cbn; tauto|eapply (H Eabi); cbn; tauto|
        eapply (H Vectorcall); cbn; tauto|eapply (H Swift); cbn; tauto|eapply (H SwiftAsync); cbn; tauto]|]). exact Hin.
  Qed.
  Lemma storage_at s a t : storage_code s a -> one_of (L "01234") s = true /\
    exists sc, demangle_variable_storage_class (at' (s :: t)) = Ok (sc, at' t) /\ daccess (Some sc) a.
  Proof.
    intros H. split; [destruct H; reflexivity|]. unfold demangle_variable_storage_class. rewrite (bind_eq _ _ _ _ _ (next_at _ _ _ _ _ _)).
    destruct H; eexists; (split; [reflexivity|exact I]).
  Qed.
  Lemma throw_at ne t : demangle_throw_specification (at' (throw_code ne ++ t)) = Ok (ne, at' t).
  Proof.
    unfold demangle_throw_specification, throw_code. destruct ne.
    - rewrite (bind_eq _ _ _ _ _ (eats_yes _ _ _ _ _)). reflexivity.
    - rewrite (bind_eq _ _ _ _ _ (eats_no (L "_E") (L "Z" ++ t) _ _ _ eq_refl)).
      change (L "Z" ++ t) with (ch "Z" :: t). rewrite (bind_eq _ _ _ _ _ (eat_yes _ _ _ _ _)). reflexivity.
  Qed.
  Lemma signed_at x z t : signed_number x z -> demangle_signed (at' (x ++ t)) = Ok (z, at' t).
  Proof.
    intros (v & neg & Hx & Hv & ->). unfold demangle_signed. rewrite (bind_eq _ _ _ _ _ (number_at _ _ _ _ _ _ _ Hx)). cbv iota beta.
    change two63 with (2 ^ 63)%N. apply N.ltb_lt in Hv. rewrite Hv. reflexivity.
  Qed.
  Lemma prim_at k t : demangle_primitive_kind (at' (prim_code k ++ t)) = Ok (k, at' t).
  Proof. destruct k; cbn; rewrite ?Nat.sub_0_r; reflexivity. Qed.

  (** The class of a function. *)
  Lemma class_at x ct c a this t : class_code x ct c a this ->
    exists fc0 mid ttn, let fc := N.lor fc0 (if x then FC_ExternC else FC_None) in
      demangle_function_class (at' (ct ++ t)) = Ok (fc0, at' (mid ++ t)) /\
      this_adjust fc (at' (mid ++ t)) = Ok (ttn, at' t) /\
      contains fc FC_NoParameterList = false /\ (N.land fc (N.lor FC_Global FC_Static) =? 0)%N = this /\ dclass fc c /\
      match a with NoAdjustment => ttn = None | _ => exists ta, ttn = Some ta /\ dadj fc ta a end.
  Proof.
    assert (Hplain : forall ct c (this : bool), 
      (exists l fc0, ct = [l] /\ lookup l function_class_table = Some fc0 /\ (l =? ch "$")%N = false /\
        let fc := N.lor fc0 (if x then FC_ExternC else FC_None) in
        contains fc FC_StaticThisAdjust = false /\ contains fc FC_VirtualThisAdjust = false /\
        contains fc FC_NoParameterList = false /\ (N.land fc (N.lor FC_Global FC_Static) =? 0)%N = this /\ dclass fc c) ->
      exists fc0 mid ttn, let fc := N.lor fc0 (if x then FC_ExternC else FC_None) in
      demangle_function_class (at' (ct ++ t)) = Ok (fc0, at' (mid ++ t)) /\
      this_adjust fc (at' (mid ++ t)) = Ok (ttn, at' t) /\
      contains fc FC_NoParameterList = false /\ (N.land fc (N.lor FC_Global FC_Static) =? 0)%N = this /\ dclass fc c /\ ttn = None).
    { intros ct' c' this' (l & fc0 & -> & Hl & Hd & H1 & H2 & H3 & H4 & H5). exists fc0, [], None. cbv zeta in *.
      split; [|split; [|auto]].
      - unfold demangle_function_class. cbn [app]. rewrite (bind_eq _ _ _ _ _ (next_at _ _ _ _ _ _)). rewrite Hd, Hl. reflexivity.
      - unfold this_adjust. rewrite H1, H2. reflexivity. }
    intros H. destruct H.
    1-4: apply Hplain; repeat match goal with b : bool |- _ => destruct b end; try destruct a; eexists _, _; (split; [reflexivity|]);
        (split; [reflexivity|]); repeat split.
    - assert (Hl : exists fc0, lookup (class_letter a 3 far) function_class_table = Some fc0 /\ (class_letter a 3 far =? ch "$")%N = false /\
        let fc := N.lor fc0 (if x then FC_ExternC else FC_None) in
        contains fc FC_StaticThisAdjust = true /\
        contains fc FC_NoParameterList = false /\ (N.land fc (N.lor FC_Global FC_Static) =? 0)%N = true /\
        dclass fc (FnClass (Some a) false match a with Private => false | _ => true end x)).
      { destruct a, far, x; eexists; (split; [reflexivity|]); repeat split. }
      destruct Hl as (fc0 & Hl & Hd & H1 & H2 & H3 & H4). cbv zeta in *. exists fc0, t0, (Some (mkTA (as_u32 z) 0 0 0)).
      split; [|split; [|split; [exact H2|split; [exact H3|split; [exact H4|]]]]].
      + unfold demangle_function_class. cbn [app]. rewrite (bind_eq _ _ _ _ _ (next_at _ _ _ _ _ _)). rewrite Hd, Hl. reflexivity.
      + unfold this_adjust. rewrite H1. rewrite (bind_eq _ _ _ _ _ (signed_at _ _ _ H)). reflexivity.
      + eexists. split; [reflexivity|]. split; [exact H1|reflexivity].
    - set (l := (ch "0" + 2 * access_index a + (if far then 1 else 0))%N).
      assert (Hl : exists fc1, lookup l virtual_class_table = Some fc1 /\ 
        let fc := N.lor (N.lor fc1 (N.lor FC_VirtualThisAdjust FC_None)) (if x then FC_ExternC else FC_None) in
        contains fc FC_StaticThisAdjust = false /\ contains fc FC_VirtualThisAdjust = true /\ contains fc FC_VirtualThisAdjustEx = false /\
        contains fc FC_NoParameterList = false /\ (N.land fc (N.lor FC_Global FC_Static) =? 0)%N = true /\
        dclass fc (FnClass (Some a) false true x) /\ (l =? ch "R")%N = false).
      { unfold l. destruct a, far, x; eexists; (split; [reflexivity|]); repeat split. }
      destruct Hl as (fc1 & Hl & H1 & H2 & H3 & H4 & H5 & H6 & H7). cbv zeta in *.
      exists (N.lor fc1 (N.lor FC_VirtualThisAdjust FC_None)), (t1 ++ t2), (Some (mkTA (as_u32 z) 0 0 (as_i32 v))).
      split; [|split; [|split; [exact H4|split; [exact H5|split; [exact H6|]]]]].
      + unfold demangle_function_class. rewrite <- !app_assoc. change (L "$" ++ ?y) with (ch "$" :: y).
        rewrite (bind_eq _ _ _ _ _ (next_at _ _ _ _ _ _)). rewrite N.eqb_refl. cbn [app].
        rewrite (bind_eq _ _ _ _ _ (eat_no _ (l :: t1 ++ t2 ++ t) _ _ _ H7)). cbv zeta.
        rewrite (bind_eq _ _ _ _ _ (next_at _ _ _ _ _ _)). rewrite Hl. reflexivity.
      + unfold this_adjust. rewrite H1, H2, H3. rewrite <- app_assoc. unfold bind at 1, ret at 1.
        rewrite (bind_eq _ _ _ _ _ (signed_at _ _ _ H)). rewrite (bind_eq _ _ _ _ _ (signed_at _ _ _ H0)). reflexivity.
      + eexists. split; [reflexivity|]. repeat split; assumption.
    - set (l := (ch "0" + 2 * access_index a + (if far then 1 else 0))%N).
      assert (Hl : exists fc1, lookup l virtual_class_table = Some fc1 /\ 
        let fc := N.lor (N.lor fc1 (N.lor FC_VirtualThisAdjust FC_VirtualThisAdjustEx)) (if x then FC_ExternC else FC_None) in
        contains fc FC_StaticThisAdjust = false /\ contains fc FC_VirtualThisAdjust = true /\ contains fc FC_VirtualThisAdjustEx = true /\
        contains fc FC_NoParameterList = false /\ (N.land fc (N.lor FC_Global FC_Static) =? 0)%N = true /\
        dclass fc (FnClass (Some a) false true x)).
      { unfold l. destruct a, far, x; eexists; (split; [reflexivity|]); repeat split. }
      destruct Hl as (fc1 & Hl & H3' & H4' & H5' & H6 & H7 & H8). cbv zeta in *.
      exists (N.lor fc1 (N.lor FC_VirtualThisAdjust FC_VirtualThisAdjustEx)), (t1 ++ t2 ++ t3 ++ t4),
        (Some (mkTA (as_u32 z) (as_i32 p) (as_i32 o) (as_i32 v))).
      split; [|split; [|split; [exact H6|split; [exact H7|split; [exact H8|]]]]].
      + unfold demangle_function_class. rewrite <- !app_assoc. change (L "$R" ++ ?y) with (ch "$" :: ch "R" :: y).
        rewrite (bind_eq _ _ _ _ _ (next_at _ _ _ _ _ _)). rewrite N.eqb_refl. cbn [app].
        rewrite (bind_eq _ _ _ _ _ (eat_yes _ _ _ _ _)). cbv zeta.
        rewrite (bind_eq _ _ _ _ _ (next_at _ _ _ _ _ _)). rewrite Hl. reflexivity.
      + unfold this_adjust. rewrite H3', H4', H5'. rewrite <- !app_assoc.
        assert (Hpo : (a <- demangle_signed ;; b <- demangle_signed ;; ret (as_i32 a, as_i32 b)) (at' (t1 ++ t2 ++ t3 ++ t4 ++ t)) =
          Ok ((as_i32 p, as_i32 o), at' (t3 ++ t4 ++ t))).
        { rewrite (bind_eq _ _ _ _ _ (signed_at _ _ _ H)). rewrite (bind_eq _ _ _ _ _ (signed_at _ _ _ H0)). reflexivity. }
        rewrite (bind_eq _ _ _ _ _ Hpo).
        rewrite (bind_eq _ _ _ _ _ (signed_at _ _ _ H1)). rewrite (bind_eq _ _ _ _ _ (signed_at _ _ _ H2)). reflexivity.
      + eexists. split; [reflexivity|]. repeat split; assumption.
  Qed.
  Lemma class_head x ct c a this t : class_code x ct c a this ->
    exists l r, ct ++ t = l :: r /\ one_of (L "01234") l = false /\ strip_prefix (L "$$J0") (ct ++ t) = None.
  Proof.
    intros H. destruct H.
    1-4: repeat match goal with b : bool |- _ => destruct b end; try destruct a; eexists _, _; (split; [reflexivity|]); (split; reflexivity).
    - destruct a, far; eexists _, _; (split; [reflexivity|]); (split; reflexivity).
    - destruct a, far; eexists _, _; (split; [reflexivity|]); (split; reflexivity).
    - destruct a, far; eexists _, _; (split; [reflexivity|]); (split; reflexivity).
  Qed.

  (** Operators. *)
  Definition op_of (c : str) : option ifk :=
    match c with
    | a :: [] => match nth_error basic_table (N.to_nat (if is_digit a then (a - ch "0")%N else (a - ch "A" + 10)%N)) with Some o => o | None => None end
    | _ :: a :: [] => match nth_error under_table (N.to_nat (if is_digit a then (a - ch "0")%N else (a - ch "A" + 10)%N)) with Some o => o | None => None end
    | _ :: _ :: a :: [] => match nth_error double_under_table (N.to_nat (if is_digit a then (a - ch "0")%N else (a - ch "A" + 10)%N)) with Some o => o | None => None end
    | _ => None
    end.
  Lemma operators_ok : Forall (fun p => exists op, op_of (fst p) = Some op /\ ifk_name op = snd p) operators.
  Proof. repeat (constructor; [eexists; split; reflexivity|]). constructor. Qed.
  Lemma op_eq c x : In (c, x) operators -> exists op, op_of c = Some op /\ ifk_name op = x.
  Proof. intros H. exact (proj1 (Forall_forall _ _) operators_ok (c, x) H). Qed.
  Lemma operator_at E c x t : In (c, x) operators -> exists op, ifk_name op = x /\
    demangle_function_identifier_code E (at' (L "?" ++ c ++ t)) = intern E (NIntrinsic None (Some op)) (at' t).
  Proof.
    intros H. assert (Ha : Forall (fun p => exists op, ifk_name op = snd p /\ forall t,
      demangle_function_identifier_code E (at' (L "?" ++ fst p ++ t)) = intern E (NIntrinsic None (Some op)) (at' t)) operators).
    { repeat (constructor; [eexists; split; [|intros t0; cbn; rewrite ?Nat.sub_0_r; reflexivity]; reflexivity|]). constructor. }
    rewrite Forall_forall in Ha. destruct (Ha _ H) as (op & H1 & H2). exists op. auto.
  Qed.
  (** Codes without a name. *)
  Lemma unnamed_at E c t : In c unnamed_codes ->
    demangle_function_identifier_code E (at' (L "?" ++ c ++ t)) = intern E (NIntrinsic None None) (at' t).
  Proof.
    intros H. assert (Ha : Forall (fun c => forall t,
      demangle_function_identifier_code E (at' (L "?" ++ c ++ t)) = intern E (NIntrinsic None None) (at' t)) unnamed_codes).
    { repeat (constructor; [intros t0; cbn; rewrite ?Nat.sub_0_r; reflexivity|]). constructor. }
    rewrite Forall_forall in Ha. apply Ha. exact H.
  Qed.
  Lemma unnamed_head c : In c unnamed_codes -> exists r, c = ch "_" :: r /\ 1 <= length r.
  Proof.
    intros H. assert (Ha : Forall (fun c => exists r, c = ch "_" :: r /\ 1 <= length r) unnamed_codes).
    { repeat (constructor; [eexists; split; [reflexivity|cbn; lia]|]). constructor. }
    rewrite Forall_forall in Ha. apply Ha. exact H.
  Qed.
  Lemma free_unnamed c : In c free_codes -> In c unnamed_codes.
  Proof. intros H. right. apply in_or_app. right. exact H. Qed.
End ReadAt.
