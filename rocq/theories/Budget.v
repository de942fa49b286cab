(** C05, the exact boundary: functions with [n] one-letter parameters. *)
From Verif Require Import Parser Api Utf8 Lex Step Show Grammar Number Safety Limits Trip NameRefs NumArr Members ParamRefs.

(** ** Specification *)
(** The one-letter parameter types, and the type each stands for. *)
Definition letter_types : list (N * prim_kind) :=
  [(ch "C", Schar); (ch "D", Char); (ch "E", Uchar); (ch "F", Short); (ch "G", Ushort); (ch "H", Int); (ch "I", Uint);
   (ch "J", Long); (ch "K", Ulong); (ch "M", Float); (ch "N", Double); (ch "O", Ldouble)].
(** [void f(types)], mangled. *)
Definition letters_function (ls : list (N * prim_kind)) : str := L "?f@@YAX" ++ map fst ls ++ L "@Z".

Section Count.
  Variable E : env.
  Definition prims (ls : list (N * prim_kind)) : store := map (fun p => NPrim Q_None (snd p)) ls.

  Lemma upd_last (sg : store) a b : upd (sg ++ [a]) (length sg) b = sg ++ [b].
  Proof. induction sg as [|x sg IH]; [reflexivity|]. cbn [length app]. cbn. f_equal. exact IH. Qed.
  Lemma letter_type K l k r sg f n : In (l, k) letter_types -> (N.of_nat (length sg + 1) <= e_nodes E)%N ->
    demangle_type E K QDrop (at_ (l :: r) sg f n) = Ok (length sg, at_ r (sg ++ [NPrim Q_None k]) f n).
  Proof.
    intros Hl Hn. unfold demangle_type. rewrite (bind_eq _ _ _ _ _ (eq_refl : ret Q_None (at_ (l :: r) sg f n) = Ok (Q_None, at_ (l :: r) sg f n))).
    rewrite (bind_eq _ _ _ _ _ (text_at _ _ _ _)). cbn [is_empty].
    assert (Hp : (if is_tag_type (l :: r) then demangle_class_type E K
             else if is_pointer_type (l :: r) then
               match is_member_pointer (l :: r) with
               | Some true => demangle_member_pointer_type E K
               | Some false => demangle_pointer_type E K
               | None => fail InvalidType
               end
             else if is_array_type (l :: r) then demangle_array_type E K
             else if is_function_type (l :: r) then
               a8 <- eat_str (L "$$A8@@") ;;
               if a8 then demangle_function_type E K true
               else a6 <- eat_str (L "$$A6") ;;
                    if a6 then demangle_function_type E K false else fail InvalidType
             else if is_custom_type (l :: r) then demangle_custom_type E K
             else demangle_primitive_type E) = demangle_primitive_type E).
    { repeat (destruct Hl as [Hl|Hl]; [injection Hl as <- <-; reflexivity|]). destruct Hl. }
    rewrite Hp. clear Hp.
    assert (Hq : demangle_primitive_type E (at_ (l :: r) sg f n) = Ok (length sg, at_ r (sg ++ [NPrim Q_None k]) f n)).
    { unfold demangle_primitive_type, demangle_primitive_kind.
      assert (Hs : strip_prefix (L "$$T") (l :: r) = None) by (repeat (destruct Hl as [Hl|Hl]; [injection Hl as <- <-; reflexivity|]); destruct Hl).
      rewrite (bind_eq _ _ (at_ (l :: r) sg f n) k (at_ r sg f n)).
      - apply intern_at; assumption.
      - rewrite (bind_eq _ _ _ _ _ (eats_no _ _ _ _ _ Hs)). cbv iota. rewrite (bind_eq _ _ _ _ _ (next_at _ _ _ _ _ _)).
        clear Hs. repeat (destruct Hl as [Hl|Hl]; [injection Hl as <- <-; reflexivity|]). destruct Hl. }
    rewrite (bind_eq _ _ _ _ _ Hq). unfold modify, bind, resolve.
    change (s_store (at_ r (sg ++ [NPrim Q_None k]) f n)) with (sg ++ [NPrim Q_None k]).
    rewrite nth_error_app2, Nat.sub_diag by lia. cbn [nth_error hkind is_type ret]. unfold append_quals, node_quals. cbn [N.lor Q_None].
    unfold at_, set_store. cbn [s_ms s_fps s_names]. rewrite upd_last. reflexivity.
  Qed.
  Lemma letters_loop d ls : forall fuel acc sg f n, Forall (fun p => In p letter_types) ls -> length ls < fuel ->
    (N.of_nat (length sg + length ls) <= e_nodes E)%N ->
    exists hs, params_loop (knot_of E (S d)) fuel acc (at_ (map fst ls ++ L "@Z") sg f n) = Ok (hs, at_ (L "@Z") (sg ++ prims ls) f n).
  Proof.
    induction ls as [|[l k] ls IH]; intros fuel acc sg f n Hl Hf Hn; (destruct fuel as [|fuel]; [cbn in Hf; lia|]); cbn [params_loop map fst app].
    - eexists. rewrite (bind_eq _ _ _ _ _ (text_at _ _ _ _)). unfold prims. cbn [map]. rewrite app_nil_r. reflexivity.
    - inversion Hl as [|? ? Hi Hl']; subst. cbn [length] in Hf, Hn.
      rewrite (bind_eq _ _ _ _ _ (text_at _ _ _ _)).
      assert (H1 : first_is (one_of (L "@Z")) (l :: map fst ls ++ L "@Z") = false) by (cbn in Hi; repeat (destruct Hi as [Hi|Hi]; [injection Hi as <- <-; reflexivity|]); destruct Hi).
      assert (H2 : first_is is_digit (l :: map fst ls ++ L "@Z") = false) by (cbn in Hi; repeat (destruct Hi as [Hi|Hi]; [injection Hi as <- <-; reflexivity|]); destruct Hi).
      rewrite H1. cbn [is_empty]. rewrite (bind_eq _ _ _ _ _ (eatif_no _ _ _ _ _ H2)). rewrite (bind_eq _ _ _ _ _ (len_at _ _ _ _)).
      cbn [knot_of k_type]. rewrite (bind_eq _ _ _ _ _ (letter_type _ l k _ sg f n Hi ltac:(lia))). rewrite (bind_eq _ _ _ _ _ (len_at _ _ _ _)).
      cbn [length]. destruct (Nat.ltb_spec (S (length (map fst ls ++ L "@Z"))) (length (map fst ls ++ L "@Z"))); [lia|].
      replace (S (length (map fst ls ++ L "@Z")) - length (map fst ls ++ L "@Z")) with 1 by lia.
      rewrite (bind_eq _ _ _ _ _ (eq_refl : ret tt (at_ (map fst ls ++ L "@Z") (sg ++ [NPrim Q_None k]) f n) = Ok (tt, _))).
      destruct (IH fuel (length sg :: acc) (sg ++ [NPrim Q_None k]) f n Hl' ltac:(lia)) as (hs & Hhs); [rewrite app_length; cbn [length]; lia|].
      exists hs. etransitivity; [exact Hhs|]. unfold prims. rewrite <- app_assoc. reflexivity.
  Qed.
  Lemma void_type K r sg f n : (N.of_nat (length sg + 1) <= e_nodes E)%N ->
    demangle_type E K QResult (at_ (ch "X" :: r) sg f n) = Ok (length sg, at_ r (sg ++ [NPrim Q_None Void]) f n).
  Proof.
    intros Hn. unfold demangle_type. rewrite (bind_eq _ _ _ _ _ (eq_refl : _ (at_ (ch "X" :: r) sg f n) = Ok (Q_None, at_ (ch "X" :: r) sg f n))).
    rewrite (bind_eq _ _ _ _ _ (text_at _ _ _ _)). cbn [is_empty].
    change (is_tag_type (ch "X" :: r)) with false. cbv iota.
    change (is_pointer_type (ch "X" :: r)) with false. cbv iota.
    change (is_array_type (ch "X" :: r)) with false. cbv iota.
    change (is_function_type (ch "X" :: r)) with false. cbv iota.
    change (is_custom_type (ch "X" :: r)) with false. cbv iota.
    assert (Hq : demangle_primitive_type E (at_ (ch "X" :: r) sg f n) = Ok (length sg, at_ r (sg ++ [NPrim Q_None Void]) f n)).
    { unfold demangle_primitive_type, demangle_primitive_kind.
      rewrite (bind_eq _ _ (at_ (ch "X" :: r) sg f n) Void (at_ r sg f n)).
      - apply intern_at; assumption.
      - rewrite (bind_eq _ _ _ _ _ (eats_no (L "$$T") (ch "X" :: r) sg f n eq_refl)). cbv iota. rewrite (bind_eq _ _ _ _ _ (next_at _ _ _ _ _ _)). reflexivity. }
    rewrite (bind_eq _ _ _ _ _ Hq). unfold modify, bind, resolve.
    change (s_store (at_ r (sg ++ [NPrim Q_None Void]) f n)) with (sg ++ [NPrim Q_None Void]).
    rewrite nth_error_app2, Nat.sub_diag by lia. cbn [nth_error hkind is_type ret]. unfold append_quals, node_quals. cbn [N.lor Q_None].
    unfold at_, set_store. cbn [s_ms s_fps s_names]. rewrite upd_last. reflexivity.
  Qed.
  Lemma letters_type d ls sg f n : Forall (fun p => In p letter_types) ls ->
    (N.of_nat (length sg + length ls + 3) <= e_nodes E)%N ->
    exists hs s, demangle_function_type E (knot_of E (S d)) false (at_ (L "AX" ++ map fst ls ++ L "@Z") sg f n) =
      Ok (length sg + length ls + 2, at_ [] (sg ++ [NPrim Q_None Void] ++ prims ls ++ [NNodes hs; NFSig s]) f n).
  Proof.
    intros Hl Hn. unfold demangle_function_type. cbv iota.
    rewrite (bind_eq _ _ _ _ _ (eq_refl : ret (Q_None, None) (at_ (L "AX" ++ map fst ls ++ L "@Z") sg f n) = Ok ((Q_None, None), _))). cbv iota beta.
    rewrite (bind_eq _ _ _ (Some Cdecl) (at_ (L "X" ++ map fst ls ++ L "@Z") sg f n)) by reflexivity.
    rewrite (bind_eq _ _ _ _ _ (eat_no (ch "@") (L "X" ++ map fst ls ++ L "@Z") sg f n eq_refl)). cbv iota.
    rewrite (bind_eq _ _ _ (Some (length sg)) (at_ (map fst ls ++ L "@Z") (sg ++ [NPrim Q_None Void]) f n)).
    2:{ cbn [knot_of k_type]. etransitivity; [apply (bind_eq _ _ _ _ _ (void_type _ (map fst ls ++ L "@Z") sg f n ltac:(lia)))|reflexivity]. }
    set (sg1 := sg ++ [NPrim Q_None Void]).
    assert (Hn1 : length sg1 = length sg + 1) by (unfold sg1; rewrite app_length; reflexivity).
    destruct (letters_loop d ls (S (length (map fst ls ++ L "@Z"))) [] sg1 f n Hl) as (hs & Hhs); [rewrite app_length, map_length; lia|lia|].
    assert (Hn2 : length (sg1 ++ prims ls) = length sg + 1 + length ls) by (rewrite app_length, Hn1; unfold prims; rewrite map_length; lia).
    assert (Hx : starts (ch "X") (map fst ls ++ L "@Z") = false).
    { destruct ls as [|[l k] ls']; [reflexivity|]. inversion Hl as [|? ? Hi]; subst. cbn in Hi; repeat (destruct Hi as [Hi|Hi]; [injection Hi as <- <-; reflexivity|]); destruct Hi. }
    rewrite (bind_eq _ _ _ (Some (length (sg1 ++ prims ls)), false) (at_ (L "Z") ((sg1 ++ prims ls) ++ [NNodes hs]) f n)).
    2:{ unfold demangle_function_parameter_list. rewrite (bind_eq _ _ _ _ _ (eat_no _ _ _ _ _ Hx)). cbv iota.
        rewrite (bind_eq _ _ _ _ _ (text_at _ _ _ _)). rewrite (bind_eq _ _ _ _ _ Hhs).
        rewrite (bind_eq _ _ _ _ _ (intern_at E (NNodes hs) (L "@Z") (sg1 ++ prims ls) f n ltac:(lia))).
        etransitivity; [apply (bind_eq _ _ _ _ _ (eat_yes (ch "@") (L "Z") _ _ _))|reflexivity]. }
    cbv iota beta.
    rewrite (bind_eq _ _ _ false (at_ [] ((sg1 ++ prims ls) ++ [NNodes hs]) f n)) by reflexivity.
    exists hs. eexists. rewrite intern_at by (rewrite app_length; cbn [length]; lia).
    rewrite app_length, Hn2. cbn [length]. unfold sg1. rewrite <- !app_assoc. cbn [app]. f_equal. f_equal. lia.
  Qed.
  (** Exactly [8 + n] nodes. *)
  Lemma letters_parse d ls : Forall (fun p => In p letter_types) ls -> (N.of_nat (length ls + 8) <= e_nodes E)%N ->
    exists h st, parse_with E (S (S d)) (letters_function ls) = Ok (h, st) /\ length (s_store st) = length ls + 8.
  Proof.
    intros Hl Hn. unfold parse_with. cbn [knot_of k_parse]. change (mkKnot _ _ _) with (knot_of E (S d)). set (K := knot_of E (S d)).
    unfold do_parse, letters_function. change (init_st ?x) with (at_ x [] [] []).
    set (t := map fst ls ++ L "@Z").
    erewrite bind_eq by apply text_at. cbv iota.
    change (starts_with (L ".") (L "?f@@YAX" ++ t)) with false. cbv iota.
    change (starts_with (L "??@") (L "?f@@YAX" ++ t)) with false. cbv iota.
    erewrite bind_eq by apply (expect_yes (ch "?") _ (L "f@@YAX" ++ t)).
    erewrite bind_eq.
    2:{ unfold demangle_special_intrinsic. erewrite (bind_eq _ _ _ None); [reflexivity|].
        unfold special_table. cbn [consume_special]. repeat (erewrite bind_eq by (apply eats_no; reflexivity); cbv iota). reflexivity. }
    cbv iota. unfold demangle_declarator.
    set (sg := [NNamed None (L "f"); NNamed None (L "f"); NNodes [1]; NQual 2]).
    rewrite (bind_eq _ _ _ 3 (at_ (L "YAX" ++ t) sg [] [0])).
    2:{ unfold demangle_fully_qualified_symbol_name. erewrite bind_eq.
        2:{ unfold demangle_unqualified_symbol_name. erewrite bind_eq by apply text_at.
            change (first_is is_digit (L "f@@YAX" ++ t)) with false. cbv iota.
            change (starts_with (L "?$") (L "f@@YAX" ++ t)) with false. cbv iota.
            change (starts_with (L "?") (L "f@@YAX" ++ t)) with false. cbv iota.
            unfold demangle_simple_name. erewrite bind_eq.
            2:{ unfold demangle_simple_string. erewrite bind_eq by apply text_at.
                erewrite bind_eq by reflexivity. cbn [utf8_len N.ltb]. 
                change (utf8_len (N_of_ascii "f") + 0 =? 0) with false. cbv iota.
                erewrite bind_eq by (apply (bytes_at (L "f"))). erewrite bind_eq by reflexivity.
                erewrite bind_eq by apply expect_yes. erewrite bind_eq.
                2:{ cbn [nbb_simple NBB_Simple]. unfold memorize_string. erewrite bind_eq by reflexivity. 
                    change (s_names (at_ _ _ _ _)) with (@nil handle). cbn [length Nat.leb].
                    erewrite bind_eq by reflexivity. cbn [existsb]. erewrite bind_eq by (apply intern_at; cbn [length]; lia). reflexivity. }
                reflexivity. }
            apply (intern_at _ _ (L "@YAX" ++ t) [NNamed None (L "f")] [] [0]); cbn [length]; lia. }
        erewrite bind_eq.
        2:{ unfold demangle_name_scope_chain. erewrite bind_eq by apply text_at. erewrite bind_eq.
            2:{ cbn [scope_loop]. erewrite bind_eq by apply eat_yes. reflexivity. }
            erewrite bind_eq by (apply intern_at; cbn [length app]; lia). apply intern_at; cbn [length app]; lia. }
        erewrite bind_eq by reflexivity. reflexivity. }
    destruct (letters_type d ls sg [] [0] Hl) as (hs & s & Hs); [cbn [length sg]; lia|].
    set (sg' := sg ++ [NPrim Q_None Void] ++ prims ls ++ [NNodes hs]) in *.
    assert (Hs' : sg ++ [NPrim Q_None Void] ++ prims ls ++ [NNodes hs; NFSig s] = sg' ++ [NFSig s]) by (unfold sg'; rewrite <- !app_assoc; reflexivity).
    assert (Hlen : length sg' = length sg + length ls + 2) by (unfold sg', prims; rewrite !app_length, map_length; cbn [length]; lia).
    assert (Hlen4 : length sg' = length ls + 6) by (rewrite Hlen; cbn [length sg]; lia).
    rewrite Hs', <- Hlen in Hs.
    set (s1 := set_function_class FC_Global (NFSig s)).
    assert (He : exists nf, nf = NFunc None (length sg') /\ demangle_function_encoding E K (at_ (L "YAX" ++ t) sg [] [0]) =
      Ok (length sg' + 1, at_ [] ((sg' ++ [s1]) ++ [nf]) [] [0])).
    { eexists. split; [reflexivity|]. unfold demangle_function_encoding.
      erewrite bind_eq by (apply eats_no; reflexivity). erewrite bind_eq by apply text_at. change (is_empty (L "YAX" ++ t)) with false. cbv iota.
      rewrite (bind_eq _ _ _ FC_Global (at_ (L "AX" ++ t) sg [] [0])) by reflexivity.
      cbv zeta. change (N.lor FC_Global FC_None) with FC_Global.
      rewrite (bind_eq _ _ _ None (at_ (L "AX" ++ t) sg [] [0])) by reflexivity.
      change (contains FC_Global FC_NoParameterList) with false. cbv iota.
      change ((N.land FC_Global (N.lor FC_Global FC_Static) =? 0)%N) with false.
      rewrite (bind_eq _ _ _ _ _ Hs). cbv iota.
      rewrite (bind_eq _ _ _ (length sg') (at_ [] (sg' ++ [NFSig s]) [] [0])) by reflexivity.
      rewrite (bind_eq _ _ _ tt (at_ [] (sg' ++ [s1]) [] [0])).
      2:{ unfold modify, bind, resolve. change (s_store (at_ [] (sg' ++ [NFSig s]) [] [0])) with (sg' ++ [NFSig s]).
          rewrite nth_error_app2, Nat.sub_diag by lia. cbn [nth_error hkind]. unfold at_, set_store. cbn [s_ms s_fps s_names s_store is_sig is_sym]. rewrite upd_last. reflexivity. }
      rewrite intern_at by (rewrite app_length; cbn [length]; lia). rewrite app_length. reflexivity. }
    destruct He as (nf & Hnf & He).
    assert (Hg : forall x i, i < 4 -> nth_error ((sg' ++ [s1]) ++ [x]) i = nth_error sg i).
    { intros x i Hi. unfold sg'. rewrite <- !app_assoc. apply nth_error_app1. exact Hi. }
    assert (Hr : forall x k i, i < 4 -> res_ k i (at_ [] ((sg' ++ [s1]) ++ [x]) [] [0]) =
      match resolve sg k i with Some n => Ok (n, at_ [] ((sg' ++ [s1]) ++ [x]) [] [0]) | None => Panic end).
    { intros x k i Hi. unfold res_, resolve. change (s_store (at_ [] ?y [] [0])) with y. rewrite Hg by exact Hi. reflexivity. }
    assert (Hu : forall x, unqualified_identifier 3 (at_ [] ((sg' ++ [s1]) ++ [x]) [] [0]) = Ok (Some 1, at_ [] ((sg' ++ [s1]) ++ [x]) [] [0])).
    { intros x. unfold unqualified_identifier.
      rewrite (bind_eq _ _ _ (NQual 2) (at_ [] ((sg' ++ [s1]) ++ [x]) [] [0])) by (rewrite Hr by lia; reflexivity). cbv iota.
      rewrite (bind_eq _ _ _ (NNodes [1]) (at_ [] ((sg' ++ [s1]) ++ [x]) [] [0])) by (rewrite Hr by lia; reflexivity). cbn [rev app].
      rewrite (bind_eq _ _ _ (NNamed None (L "f")) (at_ [] ((sg' ++ [s1]) ++ [x]) [] [0])) by (rewrite Hr by lia; reflexivity). reflexivity. }
    assert (Hk : forall x, res_ KIdent 1 (at_ [] ((sg' ++ [s1]) ++ [x]) [] [0]) = Ok (NNamed None (L "f"), at_ [] ((sg' ++ [s1]) ++ [x]) [] [0])).
    { intros x. rewrite Hr by lia. reflexivity. }
    assert (Hlast : forall x, nth_error ((sg' ++ [s1]) ++ [x]) (length sg' + 1) = Some x).
    { intros x. rewrite nth_error_app2 by (rewrite app_length; cbn [length]; lia). rewrite app_length. cbn [length]. rewrite Nat.sub_diag. reflexivity. }
    assert (Hsym : demangle_encoded_symbol E K 3 (at_ (L "YAX" ++ t) sg [] [0]) = Ok (length sg' + 1, at_ [] ((sg' ++ [s1]) ++ [nf]) [] [0])).
    { unfold demangle_encoded_symbol. erewrite bind_eq by apply text_at. rewrite (bind_eq _ _ _ (ch "Y") (at_ (L "YAX" ++ t) sg [] [0])) by reflexivity.
      change (one_of (L "01234") (ch "Y")) with false. cbv iota. rewrite (bind_eq _ _ _ _ _ He).
      rewrite (bind_eq _ _ _ nf (at_ [] ((sg' ++ [s1]) ++ [nf]) [] [0])).
      2:{ unfold res_, resolve. change (s_store (at_ [] ?y [] [0])) with y. rewrite Hlast, Hnf. reflexivity. }
      rewrite Hnf. cbv iota.
      rewrite (bind_eq _ _ _ s1 (at_ [] ((sg' ++ [s1]) ++ [NFunc None (length sg')]) [] [0])).
      2:{ unfold res_, resolve. change (s_store (at_ [] ?y [] [0])) with y. rewrite <- app_assoc, nth_error_app2, Nat.sub_diag by lia. reflexivity. }
      rewrite (bind_eq _ _ _ _ _ (Hu _)). rewrite (bind_eq _ _ _ 1 (at_ [] ((sg' ++ [s1]) ++ [NFunc None (length sg')]) [] [0])) by reflexivity.
      rewrite (bind_eq _ _ _ tt (at_ [] ((sg' ++ [s1]) ++ [NFunc None (length sg')]) [] [0])).
      2:{ unfold modify, resolve. change (s_store (at_ [] ?y [] [0])) with y. rewrite Hg by lia. reflexivity. }
      reflexivity. }
    rewrite (bind_eq _ _ _ _ _ Hsym).
    rewrite (bind_eq _ _ _ tt (at_ [] ((sg' ++ [s1]) ++ [NFunc (Some 3) (length sg')]) [] [0])).
    2:{ unfold modify, resolve. change (s_store (at_ [] ?y [] [0])) with y. rewrite Hlast, Hnf. cbn [hkind set_sym_name].
        replace (length sg' + 1) with (length (sg' ++ [s1])) by (rewrite app_length; reflexivity).
        unfold at_, set_store. cbn [s_ms s_fps s_names s_store is_sig is_sym]. rewrite upd_last. reflexivity. }
    rewrite (bind_eq _ _ _ _ _ (Hu _)). rewrite (bind_eq _ _ _ 1 (at_ [] ((sg' ++ [s1]) ++ [NFunc (Some 3) (length sg')]) [] [0])) by reflexivity.
    rewrite (bind_eq _ _ _ _ _ (Hk _)). eexists _, _. split; [reflexivity|].
    change (s_store (at_ [] ?y [] [0])) with y. rewrite !app_length. cbn [length]. lia.
  Qed.
End Count.

Lemma letters_params E ls : forall G, Forall (fun p => In p letter_types) ls ->
  params E G (map fst ls) (map (fun p => TPrim Q_None (snd p)) ls) G.
Proof.
  induction ls as [|[l k] ls IH]; intros G H; cbn [map]; [constructor|]. inversion H as [|? ? Hi Hl]; subst.
  change (fst (l, k) :: map fst ls) with ([l] ++ map fst ls). eapply ps_cons; [|apply IH, Hl].
  apply pa_short; [|reflexivity]. cbn [snd]. replace [l] with (prim_code k); [apply bo_prim|].
  cbn in Hi. repeat (destruct Hi as [Hi|Hi]; [injection Hi as <- <-; reflexivity|]). destruct Hi.
Qed.
Lemma opt_length b x : length (opt b x) <= length x.
Proof. destruct b; cbn; lia. Qed.
Lemma join_length s k l : Forall (fun x => length x <= k) l -> length (join s l) <= length l * (length s + k).
Proof.
  induction l as [|a l IH]; intros H; [cbn; lia|]. inversion H as [|? ? H1 H2]; subst. specialize (IH H2).
  destruct l as [|b l]; [cbn in *; lia|]. change (join s (a :: b :: l)) with (a ++ s ++ join s (b :: l)). rewrite !app_length. cbn [length] in *. lia.
Qed.
Lemma str_bytes_le x : str_bytes x <= 4 * length x.
Proof.
  rewrite <- utf8_length. unfold utf8. induction x as [|c x IH]; [cbn; lia|]. cbn [flat_map length]. rewrite app_length, utf8_char_len.
  assert (utf8_len c <= 4) by (unfold utf8_len; repeat destruct (_ <? _)%N; lia). lia.
Qed.
Lemma letters_text_length E (ls : list (N * prim_kind)) :
  length (void_function E (L "f") (map (fun p => TPrim Q_None (snd p)) ls)) <= 60 + length ls * 18.
Proof.
  set (ys := map (fun p => TPrim Q_None (snd p)) ls).
  assert (Hj : length (join (L ", ") (map (fun t => pre E t ++ post E t) ys)) <= length ls * 18).
  { etransitivity; [apply (join_length (L ", ") 16)|unfold ys; rewrite !map_length; cbn; lia].
    apply Forall_forall. intros x Hx. unfold ys in Hx. rewrite map_map in Hx. apply in_map_iff in Hx. destruct Hx as ([l k] & <- & _). cbn [snd].
    destruct k; cbv; lia. }
  set (f := TFun Q_None (Some Cdecl) None (Some (TPrim Q_None Void)) (Some ys) false false).
  assert (Hpre : length (pre E f) <= 12).
  { unfold f. cbn [pre]. unfold cc_text, kw. destruct (negb (no_return_type E) && negb (name_only E)), (show_cc E && negb (name_only E)), (negb (no_leading_underscores E)); cbv; lia. }
  assert (Hpost : length (post E f) <= 2 + length ls * 18).
  { unfold f. cbn [post]. rewrite !app_length. unfold params_text. cbn [opt]. unfold fn_tail.
    replace (opt (negb (no_return_type E) && negb (name_only E)) []) with (@nil N) by (destruct (negb (no_return_type E) && negb (name_only E)); reflexivity).
    set (J := join _ _) in *. 
    assert (length (opt (negb (name_only E)) (L "(" ++ J ++ [] ++ L ")")) <= 2 + length ls * 18).
    { etransitivity; [apply opt_length|]. rewrite !app_length. cbn. lia. }
    change (contains Q_None Q_Const) with false. change (contains Q_None Q_Volatile) with false. change (contains Q_None Q_Restrict) with false. change (contains Q_None Q_Unaligned) with false.
    match goal with |- context[opt false (L " noexcept")] => idtac end.
    replace (length ((opt (negb (no_this_type E) && negb (name_only E)) _ ++ _) : str)) with 0; [cbn [length]; lia|].
    destruct (negb (no_this_type E) && negb (name_only E)), (negb (no_ms_keywords E)); reflexivity. }
  unfold void_function, show_function. fold f. unfold sp. rewrite !app_length.
  pose proof (opt_length (ends_word E (opt (is_thunk NoAdjustment && negb (name_only E)) (L "[thunk]: ") ++ show_access E None ++ show_member_type E false false false ++ pre E f)) (L " ")) as Ho.
  cbn [f_access f_static f_virtual f_externc].
  assert (show_access E None = []) as H1 by (unfold show_access; destruct (no_access_specifier E), (name_only E); reflexivity).
  assert (show_member_type E false false false = []) as H2 by (unfold show_member_type; destruct (no_member_type E), (name_only E); reflexivity).
  rewrite H1, H2 in *. cbn [is_thunk andb opt app length adjustment_text L list_ascii_of_string map] in *. lia.
Qed.

(** ** C05, the exact boundary *)
(** A function with one-letter parameters is demangled when it has at most 2040 of them and
    rejected as malicious when it has more: [2040] parameters are what is left of the 2048 nodes
    after the eight that the rest of this symbol takes. *)
Theorem parameter_budget : forall (E : env) (ls : list (N * prim_kind)), Forall (fun p => In p letter_types) ls ->
  demangle E (letters_function ls) =
  if length ls <=? 2040 then Ok (void_function E (L "f") (map (fun p => TPrim Q_None (snd p)) ls))
  else Err MaliciousInput.
Proof.
  intros E ls Hl. destruct (node_budget_threshold (code_limits E) (letters_function ls)) as (k & r & Hr & Hk & Hn).
  assert (Hlen : exists d, S (length (letters_function ls)) = S (S d)) by (unfold letters_function; cbn; eauto). destruct Hlen as (d & Hd).
  destruct (letters_parse (with_nodes (code_limits E) (N.of_nat (length ls + 8))) d ls Hl) as (h & st & Hp & Hs); [cbn [e_nodes with_nodes]; lia|].
  rewrite <- Hd in Hp. apply Hn in Hp. rewrite Hs in Hp.
  specialize (Hk 2048%N).
  assert (Hd' : forall s, demangle_with (with_nodes (code_limits E) 2048) s = demangle E s) by (intros s; unfold demangle; change (with_nodes (code_limits E) 2048) with (code_limits E); reflexivity).
  rewrite Hd' in Hk. clear Hd'.
  destruct (Nat.leb_spec (length ls) 2040) as [Hle|Hgt]; [|destruct (N.leb_spec k 2048); [lia|exact Hk]].
  destruct (N.leb_spec k 2048) as [_|?]; [|lia].
  assert (Hid : ident (L "f")) by (repeat split; [repeat constructor|intros [H|[]]; discriminate|discriminate]).
  assert (Hx : first_is_not "X"%char (map fst ls)).
  { intros r'. destruct ls as [|[l p] ls']; [discriminate|]. inversion Hl as [|? ? Hi]; subst. cbn in Hi; repeat (destruct Hi as [Hi|Hi]; [injection Hi as <- <-; discriminate|]); destruct Hi. }
  pose proof (void_function_demangles E (L "f") (map fst ls) _ _ Hid (letters_params _ ls _ Hl) Hx []) as Hv. rewrite app_nil_r in Hv.
  assert (Hr2 : rust_str (letters_function ls)).
  { unfold letters_function, rust_str. apply Forall_app. split; [repeat constructor|]. apply Forall_app. split; [|repeat constructor].
    apply Forall_map. eapply Forall_impl; [|exact Hl]. intros [l p] Hi. cbn in Hi; repeat (destruct Hi as [Hi|Hi]; [injection Hi as <- <-; reflexivity|]); destruct Hi. }
  destruct (Hv Hr2) as [Ho|(_ & Hm)].
  - etransitivity; [exact Ho|]. unfold outcome. destruct (N.ltb_spec (N.of_nat (length (utf8 (void_function E (L "f") (map (fun p => TPrim Q_None (snd p)) ls))))) (2 ^ 20)) as [_|Hb]; [reflexivity|exfalso].
    rewrite utf8_length in Hb. pose proof (str_bytes_le (void_function E (L "f") (map (fun p => TPrim Q_None (snd p)) ls))). pose proof (letters_text_length E ls).
    change (2 ^ 20)%N with 1048576%N in Hb. lia.
  - exfalso. apply Hr. rewrite <- Hk. exact Hm.
Qed.
Print Assumptions parameter_budget.
(** Any such list of letters is a case; here one far beyond the limit, and a short one. *)
Lemma letters_over c k n : In (c, k) letter_types -> 2040 < n -> demangle (env_of 0) (letters_function (repeat (c, k) n)) = Err MaliciousInput.
Proof.
  intros H Hn. rewrite parameter_budget, repeat_length.
  - destruct (Nat.leb_spec n 2040); [lia|reflexivity].
  - apply Forall_forall. intros p Hp. apply repeat_spec in Hp. subst p. exact H.
Qed.
Example parameter_budget_case :
  demangle (env_of 0) (letters_function (repeat (ch "H", Int) 5000)) = Err MaliciousInput /\
  letters_function [(ch "H", Int); (ch "N", Double)] = L "?f@@YAXHN@Z" /\
  demangle (env_of 0) (letters_function [(ch "H", Int); (ch "N", Double)]) = Ok (L "void __cdecl f(int, double)").
Proof.
  split; [apply letters_over; [cbn; auto 20|apply Nat.leb_le; vm_compute; reflexivity]|]. split; vm_compute; reflexivity.
Qed.
