(** The round trip: names, scopes and templates.  Proof infrastructure for [Trip]. *)
From Verif Require Import Parser Utf8 Show Den Emit Grammar Lex Step Number Pend ReadAt Literal LitRead Round.

(** Length arithmetic on concrete and concatenated texts. *)
Ltac lens := repeat match goal with
  | |- context [length (L ?s)] => let n := eval compute in (length (L s)) in change (length (L s)) with n
  | H : context [length (L ?s)] |- _ => let n := eval compute in (length (L s)) in change (length (L s)) with n in H
  end.
Ltac len := rewrite ?app_length in *; cbn [length] in *; lens; try lia.

Section Names.
  Variable E : env.
  Variable B : nat.
  Notation DT w := (dty E (cnt w) w).
  Notation DS w := (dstr E (cnt w) w).
  Notation DF w := (dfn E (cnt w) w).
  Notation okerr := (okerr E B).
  Notation ctx := (ctx E).
  Notation K := (knot_of E).

  (** Reading [t] leads from table [G] to [G']; at most two nodes per character are made. *)
  Definition rd (d : nat) (t : str) (G G' : tab) {A} (m : nat -> M A) (R : nat -> world -> store -> A -> Prop) : Prop :=
    forall fu rest w sg f n, length t <= fu -> ctx w sg f n G -> length sg + 2 * length t <= B ->
      wp okerr (m fu) (fin E w sg (length sg + 2 * length t - d) rest G' (R (length sg))) (at_ (t ++ rest) sg f n).

  Lemma fin_mono w sg M rest G A (R R1 : world -> store -> A -> Prop) a s w1 sg1 M1 :
    fin E w1 sg1 M1 rest G R1 a s -> ext w w1 -> ext sg sg1 -> M1 <= M ->
    (forall w' sg', ext w1 w' -> ext sg1 sg' -> length w' = length sg' -> R1 w' sg' a -> R w' sg' a) -> fin E w sg M rest G R a s.
  Proof.
    intros (w' & sg' & f' & n' & -> & H1 & H2 & H3 & H4 & H5) Hw Hs HM HR.
    eapply fin_intro; [eapply ext_trans; eauto|eapply ext_trans; eauto|lia|exact H4|apply HR; auto; eapply ctx_len; exact H4].
  Qed.

  Definition P_piece (G : tab) (t x : str) (G' : tab) : Prop :=
    (exists c r, t = c :: r /\ (c =? ch "@")%N = false) /\
    rd 0 t G G' (fun fu => demangle_name_scope_piece E (K fu)) (fun _ w' _ h => DS w' KIdent h x).
  Definition P_chain (G : tab) (t : str) (xs : list str) (G' : tab) : Prop :=
    1 <= length t /\ forall loop acc, length t <= loop ->
    rd 2 t G G' (fun fu => scope_loop E (K fu) loop acc) (fun _ w' _ l => exists hs, l = hs ++ acc /\ Forall2 (DS w' KIdent) hs xs).
  Definition P_tname (G : tab) (t x : str) (G' : tab) : Prop :=
    1 <= length t /\ rd 0 t G G' (fun fu => demangle_unqualified_type_name E (K fu) true) (fun _ w' _ h => DS w' KIdent h x).
  Definition P_qname (G : tab) (t : str) (xs : list str) (G' : tab) : Prop :=
    1 <= length t /\ rd 0 t G G' (fun fu => demangle_fully_qualified_type_name E (K fu)) (fun _ w' _ h => DS w' KQual h (qualified xs)).
  Definition P_template (t x : str) : Prop :=
    (exists r, t = L "?$" ++ r) /\ forall G, rd 0 t G (remember x G) (fun fu => k_tinst (K fu) NBB_Template) (fun _ w' _ h => DS w' KIdent h x).
  Definition P_targs (G : tab) (t : str) (xs : list str) (G' : tab) : Prop :=
    1 <= length t /\ forall loop acc, length t <= loop ->
    rd 2 t G G' (fun fu => targs_loop E (K fu) loop acc) (fun _ w' _ l => exists hs, l = rev acc ++ hs /\ Forall2 (DS w' KAny) hs xs).
  Definition P_targ (G : tab) (t x : str) (G' : tab) : Prop :=
    (1 <= length t /\ forall r, starts (ch "@") (t ++ r) = false /\ forall p, In p targ_separators -> strip_prefix p (t ++ r) = None) /\
    rd 0 t G G' (fun fu => template_arg E (K fu)) (fun _ w' _ h => DS w' KAny h x).

  (** Nodes of symbol identifiers, with some template parameters. *)
  Definition idshape (tp : option handle) (i : idk) (nd : node) : Prop :=
    match i with
    | IText x => (nd = NNamed tp x /\ ustr x) \/ (exists op, nd = NIntrinsic tp (Some op) /\ ifk_name op = x) \/
                 (exists b, nd = NLitOp tp b /\ ustr b /\ x = L "operator """"" ++ b) \/ (nd = NIntrinsic tp None /\ x = [])
    | IStructor d a => a = [] /\ nd = NStructor tp None d
    | IConv a => a = [] /\ nd = NConv tp None
    end.
  Definition idbase := idshape None.
  Definition idnode (w : world) (i : idk) (nd : node) : Prop :=
    match i with
    | IText x => is_ident nd = true /\ is_conv_or_structor nd = false /\ dsh E w nd x
    | IStructor d a => exists tp, nd = NStructor tp None d /\ dtp (DS w) tp a
    | IConv a => exists tp, nd = NConv tp None /\ dtp (DS w) tp a
    end.
  Lemma idbase_node w i nd : idbase i nd -> idnode w i nd.
  Proof.
    destruct i as [x|d a|a]; cbn.
    - intros [[-> Hx]|[(op & -> & Hx)|[(b & -> & Hb & ->)|(-> & ->)]]]; (split; [reflexivity|]); (split; [reflexivity|]).
      + apply named_dsh. exact Hx.
      + cbn. exists []. split; [reflexivity|]. rewrite app_nil_r. auto.
      + cbn. split; [exact Hb|]. exists []. split; [reflexivity|]. rewrite app_nil_r. reflexivity.
      + reflexivity.
    - intros [-> ->]. exists None. split; reflexivity.
    - intros [-> ->]. exists None. split; reflexivity.
  Qed.
  Lemma idshape_set tp0 i nd tp : idshape tp0 i nd -> idshape (Some tp) i (set_template_params tp nd).
  Proof.
    destruct i as [x|d a|a]; cbn [idshape].
    - intros [[-> Hx]|[(op & -> & Hx)|[(b & -> & Hb & ->)|(-> & ->)]]]; cbn [set_template_params]; eauto 7.
    - intros [-> ->]. auto.
    - intros [-> ->]. auto.
  Qed.
  Lemma idshape_node w tp i nd y : idshape (Some tp) i nd -> DS w KNodes tp y ->
    idnode w (with_targs i (L "<" ++ y ++ L ">")) nd.
  Proof.
    intros Hb Hy. assert (Ht : dtp (DS w) (Some tp) (L "<" ++ y ++ L ">")) by (exists y; auto).
    destruct i as [x|d a|a]; cbn [with_targs idnode] in *.
    - destruct Hb as [[-> Hx]|[(op & -> & Hx)|[(b & -> & Hb & ->)|(-> & ->)]]]; (split; [reflexivity|]); (split; [reflexivity|]).
      + split; [exact Hx|]. exists (L "<" ++ y ++ L ">"). auto.
      + exists (L "<" ++ y ++ L ">"). subst x. auto.
      + split; [exact Hb|]. exists (L "<" ++ y ++ L ">"). auto.
      + exact Ht.
    - destruct Hb as [-> ->]. exists (Some tp). split; [reflexivity|]. exact Ht.
    - destruct Hb as [-> ->]. exists (Some tp). split; [reflexivity|]. exact Ht.
  Qed.
  Lemma idshape_ident tp i nd : idshape tp i nd -> is_ident nd = true.
  Proof. destruct i; cbn; [intros [[-> _]|[(op & -> & _)|[(b & -> & _)|(-> & _)]]]|intros [_ ->]|intros [_ ->]]; reflexivity. Qed.

  Definition ubaseR (i : idk) (n0 : nat) (w : world) (sg : store) (h : handle) : Prop :=
    exists nd, fresh n0 w sg h nd /\ idbase i nd.
  Definition tbaseR (i : idk) (n0 : nat) (w : world) (sg : store) (h : handle) : Prop :=
    exists nd tp, fresh n0 w sg h nd /\ idshape tp i nd.
  Definition P_tbase (t : str) (i : idk) (G' : tab) : Prop :=
    2 <= length t /\ rd 0 t empty_tab G' (fun fu => demangle_unqualified_symbol_name E (K fu) NBB_Simple) (tbaseR i).
  Definition usymR (i : idk) (n0 : nat) (w : world) (sg : store) (h : handle) : Prop :=
    match i with
    | IText x => DS w KIdent h x /\ exists nd, wget w h = Some nd /\ is_ident nd = true /\ is_conv_or_structor nd = false
    | _ => exists nd, fresh n0 w sg h nd /\ idnode w i nd
    end.
  Definition P_usym (G : tab) (t : str) (i : idk) (G' : tab) : Prop :=
    1 <= length t /\ rd 0 t G G' (fun fu => demangle_unqualified_symbol_name E (K fu) NBB_Simple) (usymR i).

  Lemma ident_head x : ident x -> exists c r, x = c :: r /\ is_digit c = false /\ c <> ch "?" /\ c <> ch "@".
  Proof.
    intros (_ & Hin & H). destruct x as [|c r]; [contradiction|]. destruct H as [H1 H2]. exists c, r. repeat split; auto.
    intros ->. apply Hin. left. reflexivity.
  Qed.
  Lemma not_q (c : N) r p : c <> ch "?" -> starts_with (ch "?" :: p) (c :: r) = false.
  Proof. intros H. unfold starts_with. cbn [strip_prefix]. apply N.eqb_neq in H. rewrite N.eqb_sym, H. reflexivity. Qed.

  (** Identifiers that are neither references nor templates. *)
  Lemma special_head E' K' c r sg f n : In c (L "01B") -> 
    demangle_unqualified_symbol_name E' K' NBB_Simple (at_ (ch "?" :: c :: r) sg f n) =
    (if (c =? ch "B")%N then intern E' (NConv None None) else intern E' (NStructor None None (c =? ch "1")%N)) (at_ r sg f n).
  Proof. intros H. cbn in H. destruct H as [<-|[<-|[<-|[]]]]; cbn; rewrite ?Nat.sub_0_r; reflexivity. Qed.
  Lemma ubase_at G t i G' : ubase G t i G' -> 2 <= length t /\
    rd 0 t G G' (fun fu => demangle_unqualified_symbol_name E (K fu) NBB_Simple) (ubaseR i).
  Proof.
    intros H. destruct H as [G x Hx|G c x Hx|G x Hu Hne Hin|G|G|G]; (split; [try (destruct (ident_head x Hx) as (c & r & -> & _)); len|]).
    - intros fu rest w sg f n Hfu Hc HB. unfold demangle_unqualified_symbol_name. rewrite <- app_assoc. eapply wp_step; [apply text_at|].
      destruct (ident_head x Hx) as (c & r & Hxe & Hd & Hq & _).
      assert (H1 : first_is is_digit (x ++ L "@" ++ rest) = false) by (rewrite Hxe; exact Hd).
      assert (H2 : starts_with (L "?$") (x ++ L "@" ++ rest) = false) by (rewrite Hxe; apply not_q; exact Hq).
      assert (H3 : starts_with (L "?") (x ++ L "@" ++ rest) = false) by (rewrite Hxe; apply not_q; exact Hq).
      rewrite H1, H2, H3. assert (Hl : 1 <= length x) by (rewrite Hxe; cbn; lia).
      eapply wp_mono; [eapply name_at; [exact Hc|exact Hx|len]|]. intros h s Hf.
      eapply fin_mono; [exact Hf|apply ext_refl|apply ext_refl|len|]. intros w' sg' _ _ _ Hfr. exists (NNamed None x). split; [exact Hfr|].
      left. split; [reflexivity|apply Hx].
    - assert (Ha : Forall (fun p => 1 <= length (fst p)) operators) by (repeat (constructor; [cbn; lia|]); constructor).
      rewrite Forall_forall in Ha. specialize (Ha _ Hx). cbn [fst] in Ha. lia.
    - intros fu rest w sg f n Hfu Hc HB. unfold demangle_unqualified_symbol_name. rewrite <- app_assoc. eapply wp_step; [apply text_at|].
      assert (H1 : first_is is_digit (L "?" ++ c ++ rest) = false) by reflexivity.
      assert (H2 : starts_with (L "?$") (L "?" ++ c ++ rest) = false).
      { assert (Ha : Forall (fun p => starts_with (L "?$") (L "?" ++ fst p ++ rest) = false) operators) by (repeat (constructor; [reflexivity|]); constructor).
        rewrite Forall_forall in Ha. exact (Ha _ Hx). }
      rewrite H1, H2. change (starts_with (L "?") (L "?" ++ c ++ rest)) with true. cbv iota.
      destruct (operator_at sg f n E c x rest Hx) as (op & Hop & Hd). unfold wp. rewrite Hd.
      change (wp okerr (intern E (NIntrinsic None (Some op))) (fin E w sg (length sg + 2 * length (L "?" ++ c) - 0) rest G (ubaseR (IText x) (length sg))) (at_ rest sg f n)).
      assert (Ha : Forall (fun p => 1 <= length (fst p)) operators) by (repeat (constructor; [cbn; lia|]); constructor).
      rewrite Forall_forall in Ha. specialize (Ha _ Hx). cbn [fst] in Ha.
      eapply wp_new_hidden; [exact Hc|len|]. intros Hc'. eapply fin_intro; [apply ext_app|apply ext_app|len|exact Hc'|].
      exists (NIntrinsic None (Some op)). split; [apply fresh_new; eapply ctx_len; exact Hc|]. right. left. exists op. auto.
    - intros fu rest w sg f n Hfu Hc HB. unfold demangle_unqualified_symbol_name. rewrite <- !app_assoc. eapply wp_step; [apply text_at|].
      change (first_is is_digit (L "?__K" ++ x ++ L "@" ++ rest)) with false.
      change (starts_with (L "?$") (L "?__K" ++ x ++ L "@" ++ rest)) with false.
      change (starts_with (L "?") (L "?__K" ++ x ++ L "@" ++ rest)) with true. cbv iota.
      unfold demangle_function_identifier_code. eapply wp_step; [apply (expect_yes (ch "?") _ (L "__K" ++ x ++ L "@" ++ rest))|].
      eapply wp_step; [apply (eats_yes (L "__") (L "K" ++ x ++ L "@" ++ rest))|]. unfold demangle_function_identifier_code_group.
      eapply wp_step; [apply (next_at _ (ch "K"))|]. cbv zeta. rewrite N.eqb_refl.
      apply wp_bind. eapply wp_mono; [eapply string_at; try eassumption; len|]. intros y s (w' & sg' & f' & n' & -> & H1 & H2 & H3 & H4 & ->).
      eapply wp_new_hidden; [exact H4|len|]. intros Hc'. eapply fin_intro; [eapply ext_trans; [exact H1|apply ext_app]|
        eapply ext_trans; [exact H2|apply ext_app]|len|exact Hc'|].
      exists (NLitOp None x). split; [eapply fresh_le; [|apply fresh_new; eapply ctx_len; exact H4]; apply ext_len; exact H2|].
      right. right. left. exists x. auto.
    - intros fu rest w sg f n Hfu Hc HB. unfold wp.
      change (L "?0" ++ rest) with (ch "?" :: ch "0" :: rest). rewrite (special_head E (K fu) (ch "0") rest sg f n) by (cbn; auto).
      change (wp okerr (intern E (NStructor None None false)) (fin E w sg (length sg + 2 * length (L "?0") - 0) rest G (ubaseR (IStructor false []) (length sg))) (at_ rest sg f n)).
      eapply wp_new_hidden; [exact Hc|len|]. intros Hc'. eapply fin_intro; [apply ext_app|apply ext_app|len|exact Hc'|].
      exists (NStructor None None false). split; [apply fresh_new; eapply ctx_len; exact Hc|]. split; reflexivity.
    - intros fu rest w sg f n Hfu Hc HB. unfold wp.
      change (L "?1" ++ rest) with (ch "?" :: ch "1" :: rest). rewrite (special_head E (K fu) (ch "1") rest sg f n) by (cbn; auto).
      change (wp okerr (intern E (NStructor None None true)) (fin E w sg (length sg + 2 * length (L "?1") - 0) rest G (ubaseR (IStructor true []) (length sg))) (at_ rest sg f n)).
      eapply wp_new_hidden; [exact Hc|len|]. intros Hc'. eapply fin_intro; [apply ext_app|apply ext_app|len|exact Hc'|].
      exists (NStructor None None true). split; [apply fresh_new; eapply ctx_len; exact Hc|]. split; reflexivity.
    - intros fu rest w sg f n Hfu Hc HB. unfold wp.
      change (L "?B" ++ rest) with (ch "?" :: ch "B" :: rest). rewrite (special_head E (K fu) (ch "B") rest sg f n) by (cbn; auto).
      change (wp okerr (intern E (NConv None None)) (fin E w sg (length sg + 2 * length (L "?B") - 0) rest G (ubaseR (IConv []) (length sg))) (at_ rest sg f n)).
      eapply wp_new_hidden; [exact Hc|len|]. intros Hc'. eapply fin_intro; [apply ext_app|apply ext_app|len|exact Hc'|].
      exists (NConv None None). split; [apply fresh_new; eapply ctx_len; exact Hc|]. split; reflexivity.
  Qed.

  (** ** Pieces *)
  Lemma c_pc_ref G i x : i < 10 -> nth_error (fst G) i = Some x -> P_piece G [digit_char i] x G.
  Proof.
    intros Hi Hx. split.
    - exists (digit_char i), []. split; [reflexivity|]. unfold digit_char. change (ch "0") with 48%N. change (ch "@") with 64%N. apply N.eqb_neq. lia.
    - intros fu rest w sg f n Hfu Hc HB. unfold demangle_name_scope_piece. eapply wp_step; [apply text_at|].
      assert (H1 : first_is is_digit ([digit_char i] ++ rest) = true) by (apply digit_is; exact Hi). rewrite H1.
      eapply wp_mono; [eapply backref_at; eassumption|]. intros h s Hf.
      eapply fin_mono; [exact Hf|apply ext_refl|apply ext_refl|len|]. intros w' sg' _ _ _ [H _]. exact H.
  Qed.
  Lemma c_pc_name G x : ident x -> P_piece G (x ++ L "@") x (remember x G).
  Proof.
    intros Hx. destruct (ident_head x Hx) as (c & r & Hxe & Hd & Hq & Ha). split.
    - exists c, (r ++ L "@"). split; [rewrite Hxe; reflexivity|]. apply N.eqb_neq. exact Ha.
    - intros fu rest w sg f n Hfu Hc HB. unfold demangle_name_scope_piece. rewrite <- app_assoc. eapply wp_step; [apply text_at|].
      assert (H1 : first_is is_digit (x ++ L "@" ++ rest) = false) by (rewrite Hxe; exact Hd).
      assert (H2 : starts_with (L "?$") (x ++ L "@" ++ rest) = false) by (rewrite Hxe; apply not_q; exact Hq).
      assert (H3 : starts_with (L "?A") (x ++ L "@" ++ rest) = false) by (rewrite Hxe; apply not_q; exact Hq).
      assert (H4 : local_scope_pattern (x ++ L "@" ++ rest) = Ok false).
      { rewrite Hxe. cbn [app]. unfold local_scope_pattern. apply N.eqb_neq in Hq. rewrite Hq. reflexivity. }
      rewrite H1, H2, H3, H4. assert (Hl : 1 <= length x) by (rewrite Hxe; cbn; lia).
      eapply wp_mono; [eapply name_known; [exact Hc|exact Hx|len]|]. intros h s Hf.
      eapply fin_mono; [exact Hf|apply ext_refl|apply ext_refl|len|]. auto.
  Qed.
  Lemma c_pc_anonymous G k : ustr k -> ~ In (ch "@") k ->
    P_piece G (L "?A" ++ k ++ L "@") (L "`anonymous namespace'") (remember k G).
  Proof.
    intros Hk Hin. split; [eexists _, _; split; reflexivity|].
    intros fu rest w sg f n Hfu Hc HB. unfold demangle_name_scope_piece. rewrite <- !app_assoc. eapply wp_step; [apply text_at|].
    change (first_is is_digit (L "?A" ++ k ++ L "@" ++ rest)) with false.
    change (starts_with (L "?$") (L "?A" ++ k ++ L "@" ++ rest)) with false.
    change (starts_with (L "?A") (L "?A" ++ k ++ L "@" ++ rest)) with true. cbv iota.
    unfold demangle_anonymous_namespace_name. eapply wp_step; [apply expects_yes|]. eapply wp_step; [apply text_at|].
    change (L "@" ++ rest) with (ch "@" :: rest). rewrite find_char_app by exact Hin. eapply wp_step; [reflexivity|].
    eapply wp_step; [apply bytes_at|]. eapply wp_step; [reflexivity|]. apply wp_bind.
    eapply wp_mono; [eapply memorize_at; [exact Hc|exact Hk|len]|]. intros [] s (w' & sg' & f' & n' & -> & H1 & H2 & H3 & H4 & _).
    eapply wp_step; [apply expect_yes|]. eapply wp_new_known; [exact H4|len|]. intros Hc' Hm.
    eapply fin_intro; [eapply ext_trans; [exact H1|apply ext_app]|eapply ext_trans; [exact H2|apply ext_app]|len|exact Hc'|].
    eapply more_DS; [exact Hm|reflexivity|]. apply named_dsh. repeat constructor.
  Qed.
  Lemma c_pc_template G t x : P_template t x -> P_piece G t x (remember x G).
  Proof.
    intros [(r & ->) H]. split; [eexists _, _; split; reflexivity|].
    intros fu rest w sg f n Hfu Hc HB. unfold demangle_name_scope_piece. eapply wp_step; [apply text_at|].
    change (first_is is_digit ((L "?$" ++ r) ++ rest)) with false.
    change (starts_with (L "?$") ((L "?$" ++ r) ++ rest)) with true. cbv iota. apply H; assumption.
  Qed.
  Lemma scope_pattern nt v r : scope_number nt v -> local_scope_pattern (L "?" ++ nt ++ L "?" ++ r) = Ok true /\
    (forall c l, nt = c :: l -> is_digit c = true \/ c = ch "@" \/ in_range (ch "B") (ch "P") c = true).
  Proof.
    intros [Hn Hh]. pose proof (num_no_q _ _ Hn) as Hq. unfold local_scope_pattern.
    change (L "?" ++ nt ++ L "?" ++ r) with (ch "?" :: nt ++ ch "?" :: r). cbv iota beta. rewrite N.eqb_refl, find_char_app, split_bytes_app by exact Hq.
    destruct Hn as [d Hd|l Hl].
    - assert (Hdg : is_digit (ch "0" + d) = true) by (apply digit_iff; change (ch "9") with 57%N; change (ch "0") with 48%N; lia).
      rewrite Hdg, orb_true_r. split; [reflexivity|]. intros c l [= <- <-]. auto.
    - destruct l as [|c l]; [split; [reflexivity|]; intros c l [= <- <-]; auto|].
      assert (Hb : in_range (ch "B") (ch "P") c = true).
      { inversion Hl as [|? ? Hc _]; subst. cbn [app] in Hh. unfold in_range. apply andb_true_iff. rewrite !N.leb_le.
        change (ch "A") with 65%N in *. change (ch "B") with 66%N. change (ch "P") with 80%N in *. lia. }
      split; [|intros c' l' [= <- <-]; auto].
      assert (He : exists y ys, l ++ L "@" = y :: ys) by (destruct l; eexists _, _; reflexivity). destruct He as (y & ys & Hy).
      cbn [app]. rewrite Hy. cbv iota. rewrite <- Hy. change (c :: l ++ L "@") with ((c :: l) ++ [ch "@"]). rewrite last_last, N.eqb_refl.
      replace (str_bytes ((c :: l) ++ [ch "@"]) - 1) with (str_bytes (c :: l)) by (rewrite str_bytes_app; cbn [str_bytes]; change (str_bytes [ch "@"]) with 1; lia).
      rewrite split_bytes_app. cbv iota. rewrite Hb. cbn [andb]. f_equal. apply forallb_forall. intros z Hz.
      inversion Hl as [|? ? _ Hl']; subst. rewrite Forall_forall in Hl'. apply rebased_iff. apply Hl'. exact Hz.
  Qed.

  Lemma scope_pattern_inv t : local_scope_pattern t = Ok true -> exists nt v r, t = L "?" ++ nt ++ L "?" ++ r /\ scope_number nt v.
  Proof.
    destruct t as [|q t]; [discriminate|]. cbn [local_scope_pattern].
    destruct (N.eqb_spec q (ch "?")) as [->|]; [|discriminate].
    destruct (find_char (ch "?") t) as [e|] eqn:Hf; [|discriminate].
    apply find_char_spec in Hf. destruct Hf as (a & b & -> & <- & _). rewrite split_bytes_app.
    destruct a as [|c0 [|c1 a]]; [discriminate| |].
    - intros [= H]. apply orb_true_iff in H. destruct H as [H|H].
      + apply N.eqb_eq in H. subst c0. exists (L "@"), (letters_value 0 [] mod 2 ^ 64)%N, b. split; [reflexivity|].
        split; [apply (num_letters [])|discriminate]. constructor.
      + apply digit_iff in H. exists [c0], (c0 - ch "0" + 1)%N, b. split; [reflexivity|]. split.
        * replace c0 with (ch "0" + (c0 - ch "0"))%N at 1 by lia. apply num_digit. revert H. change (ch "0") with 48%N. change (ch "9") with 57%N. lia.
        * intros ->. revert H. change (ch "9") with 57%N. change (ch "A") with 65%N. lia.
    - destruct (last (c0 :: c1 :: a) 0 =? ch "@")%N eqn:Hl; [|discriminate]. apply N.eqb_eq in Hl.
      destruct (exists_last (l := c0 :: c1 :: a)) as (body & z & Hb); [discriminate|]. rewrite Hb in *.
      rewrite last_last in Hl. subst z. rewrite str_bytes_app.
      replace (str_bytes body + str_bytes [ch "@"] - 1) with (str_bytes body) by (cbn; lia).
      rewrite split_bytes_app. destruct body as [|b0 bs]; [discriminate|]. intros [= H]. apply andb_prop in H. destruct H as [H0 H1].
      unfold in_range in H0. apply andb_prop in H0. rewrite !N.leb_le in H0. rewrite forallb_forall in H1.
      exists ((b0 :: bs) ++ L "@"), (letters_value 0 (b0 :: bs) mod 2 ^ 64)%N, b. split; [reflexivity|]. split.
      + apply num_letters. constructor; [revert H0; change (ch "A") with 65%N; change (ch "B") with 66%N; change (ch "P") with 80%N; lia|].
        apply Forall_forall. intros c Hc. apply rebased_iff. apply H1. exact Hc.
      + cbn [app]. intros ->. revert H0. change (ch "A") with 65%N. change (ch "B") with 66%N. lia.
  Qed.
  Lemma local_scope_ok s : exists b, local_scope_pattern s = Ok b.
  Proof.
    unfold local_scope_pattern. destruct s as [|q s]; [eauto|]. destruct (_ =? _)%N; [|eauto].
    destruct (find_char (ch "?") s) as [e|] eqn:Hf; [|eauto].
    apply find_char_spec in Hf. destruct Hf as (a & b & -> & <- & _). rewrite split_bytes_app.
    destruct a as [|c0 [|c1 a]]; [eauto|eauto|].
    destruct (last (c0 :: c1 :: a) 0 =? ch "@")%N eqn:Hl; [|eauto]. apply N.eqb_eq in Hl.
    destruct (exists_last (l := c0 :: c1 :: a)) as (body & z & Hb); [discriminate|]. rewrite Hb in *.
    rewrite last_last in Hl. subst z. rewrite str_bytes_app.
    replace (str_bytes body + str_bytes [ch "@"] - 1) with (str_bytes body) by (cbn; lia).
    rewrite split_bytes_app. destruct body; eauto.
  Qed.
  Lemma split_at (c : N) a b a' b' : ~ In c a -> ~ In c a' -> a ++ c :: b = a' ++ c :: b' -> a = a' /\ b = b'.
  Proof.
    revert a'. induction a as [|x a IH]; intros [|y a'] H1 H2; cbn; intros [= H]; subst; auto.
    - exfalso. apply H2. left. reflexivity.
    - exfalso. apply H1. left. reflexivity.
    - destruct (IH a') as [-> ->]; auto; [intros Hi; apply H1; right; exact Hi|intros Hi; apply H2; right; exact Hi].
  Qed.
  Lemma odd_pattern x t rest : odd_scope x t -> t <> [] -> local_scope_pattern (L "?" ++ x ++ L "@" ++ t ++ rest) = Ok false.
  Proof.
    intros ((_ & Hin & _) & _ & Hd & Hf) Ht. destruct (local_scope_ok (L "?" ++ x ++ L "@" ++ t ++ rest)) as [[] Hb]; [|exact Hb].
    exfalso. destruct (scope_pattern_inv _ Hb) as (nt & v & r & He & Hn & Hh). apply app_inv_head in He. destruct Hn as [d Hdd|l Hl].
    - assert (Hdg : is_digit (ch "0" + d) = true) by (apply digit_iff; change (ch "9") with 57%N; change (ch "0") with 48%N; lia).
      set (z := (ch "0" + d)%N) in *. clearbody z.
      destruct x as [|c x]; [cbn in He; injection He as He _; rewrite <- He in Hdg; discriminate|]. cbn [app] in He. injection He as -> He.
      destruct x as [|c x]; [discriminate He|]. injection He as -> He. apply (Hd z x Hdg). reflexivity.
    - assert (Hla : ~ In (ch "@") l).
      { intros Hi. rewrite Forall_forall in Hl. specialize (Hl _ Hi). revert Hl. change (ch "A") with 65%N. change (ch "@") with 64%N. lia. }
      rewrite <- app_assoc in He. apply (split_at (ch "@")) in He; [|exact Hin|exact Hla]. destruct He as [-> He].
      destruct Hf as [Hf|Hf].
      + destruct t as [|c t]; [congruence|]. injection He as -> _. apply (Hf t). reflexivity.
      + apply Hf. eexists. split; [apply num_letters; exact Hl|exact Hh].
  Qed.
  Lemma odd_start x a r : first_is_not a x -> a <> "@"%char -> starts_with (ch "?" :: [ch a]) (L "?" ++ x ++ L "@" ++ r) = false.
  Proof.
    intros H Ha. unfold starts_with. cbn [L list_ascii_of_string map app strip_prefix]. change (N_of_ascii "?") with (ch "?"). rewrite N.eqb_refl.
    assert (Hn : forall c : N, c <> ch a -> (ch a =? c)%N = false) by (intros c Hc; apply N.eqb_neq; congruence).
    destruct x as [|c x]; cbn [app strip_prefix].
    - rewrite Hn; [reflexivity|]. intros He. apply Ha. assert (ascii_of_N (N_of_ascii "@") = ascii_of_N (ch a)) as H0 by (f_equal; exact He).
      unfold ch in H0. rewrite !ascii_N_embedding in H0. congruence.
    - rewrite Hn; [reflexivity|]. intros ->. apply (H x). reflexivity.
  Qed.
  Lemma odd_plain x : odd_name x -> ustr (L "?" ++ x) /\ L "?" ++ x <> [] /\ ~ In (ch "@") (L "?" ++ x).
  Proof.
    intros (H1 & H2 & _). split; [apply ustr_app; [apply ustr_L|exact H1]|]. split; [discriminate|].
    intros [H|H]; [discriminate|]. apply H2. exact H.
  Qed.

  (** ** Symbols, as seen from inside names *)
  Definition symR (x id : str) (w : world) (h : handle) : Prop :=
    DS w KSym h x /\ exists nd qn c hs uid, wget w h = Some nd /\ is_sym nd = true /\ sym_name nd = Some qn /\
      wget w qn = Some (NQual c) /\ wget w c = Some (NNodes (hs ++ [uid])) /\ DS w KIdent uid id.
  Definition P_symbol (G : tab) (t x id : str) (G' : tab) : Prop :=
    (exists r, t = ch "?" :: r) /\ rd 0 t G G' (fun fu => k_parse (K fu)) (fun _ w' _ h => symR x id w' h).

  (** The same in front of a given text; without the identifier. *)
  Definition rd1 (rest : str) (d : nat) (t : str) (G G' : tab) {A} (m : nat -> M A) (R : nat -> world -> store -> A -> Prop) : Prop :=
    forall fu w sg f n, length t <= fu -> ctx w sg f n G -> length sg + 2 * length t <= B ->
      wp okerr (m fu) (fin E w sg (length sg + 2 * length t - d) rest G' (R (length sg))) (at_ (t ++ rest) sg f n).
  Definition symbol_at (rest : str) (G : tab) (t x id : str) (G' : tab) : Prop :=
    (exists r, t = ch "?" :: r) /\ rd1 rest 0 t G G' (fun fu => k_parse (K fu)) (fun _ w' _ h => symR x id w' h).
  Definition shown_at (rest : str) (G : tab) (t x : str) (G' : tab) : Prop :=
    (exists r, t = ch "?" :: r) /\ rd1 rest 0 t G G' (fun fu => k_parse (K fu)) (fun _ w' _ h => DS w' KSym h x).
  Lemma symbol_there G t x id G' rest : P_symbol G t x id G' -> symbol_at rest G t x id G'.
  Proof. intros [H1 H2]. split; [exact H1|]. intros fu w sg f n. apply H2. Qed.
  Lemma symbol_shown rest G t x id G' : symbol_at rest G t x id G' -> shown_at rest G t x G'.
  Proof.
    intros [H1 H2]. split; [exact H1|]. intros fu w sg f n Hfu Hc HB. eapply wp_mono; [eapply H2; [exact Hfu|exact Hc|exact HB]|].
    intros h s Hf. eapply fin_mono; [exact Hf|apply ext_refl|apply ext_refl|lia|]. intros w' sg' _ _ _ [HR _]. exact HR.
  Qed.

  Lemma local_at rest G nt v t x G' : fits E (L "`" ++ x ++ L "'::`" ++ dec_N v ++ L "'") -> scope_number nt v -> shown_at rest G t x G' ->
    rd1 rest 0 (L "?" ++ nt ++ L "?" ++ t) G G' (fun fu => demangle_name_scope_piece E (K fu))
      (fun _ w' _ h => DS w' KIdent h (L "`" ++ x ++ L "'::`" ++ dec_N v ++ L "'")).
  Proof.
    intros HT Hn [(r0 & ->) H].
    intros fu w sg f n Hfu Hc HB. unfold demangle_name_scope_piece. eapply wp_step; [apply text_at|].
    rewrite <- !app_assoc. set (t := ch "?" :: r0) in *.
    destruct (scope_pattern nt v (t ++ rest) Hn) as [Hp Hh]. rewrite Hp. pose proof (num_len _ _ (proj1 Hn)) as Hl.
    assert (Hx : first_is is_digit (L "?" ++ nt ++ L "?" ++ t ++ rest) = false) by reflexivity. rewrite Hx.
    assert (H2 : starts_with (L "?$") (L "?" ++ nt ++ L "?" ++ t ++ rest) = false /\ starts_with (L "?A") (L "?" ++ nt ++ L "?" ++ t ++ rest) = false).
    { destruct nt as [|c l]; [cbn in Hl; lia|]. unfold starts_with. change (L "?" ++ ?y) with (ch "?" :: y). cbn [app L list_ascii_of_string map strip_prefix].
      change (N_of_ascii "?") with (ch "?"). rewrite N.eqb_refl. change (N_of_ascii "$") with 36%N. change (N_of_ascii "A") with 65%N.
      assert (Hc36 : c <> 36%N /\ c <> 65%N).
      { destruct (Hh c l eq_refl) as [Hd|[->|Hd]].
        - apply digit_iff in Hd. change (ch "0") with 48%N in Hd. change (ch "9") with 57%N in Hd. lia.
        - split; discriminate.
        - unfold in_range in Hd. apply andb_true_iff in Hd. rewrite !N.leb_le in Hd. change (ch "B") with 66%N in Hd. lia. }
      destruct Hc36 as [Ha Hb]. apply N.eqb_neq in Ha, Hb. rewrite (N.eqb_sym 36), (N.eqb_sym 65), Ha, Hb. auto. }
    destruct H2 as [H2 H3]. rewrite H2, H3. unfold demangle_locally_scoped_name_piece.
    eapply wp_step; [apply (expect_yes (ch "?"))|].
    eapply wp_step; [apply (number_at nt v false); exists nt; split; [apply Hn|reflexivity]|]. cbv iota beta.
    eapply wp_step; [apply (expect_yes (ch "?"))|]. apply wp_bind. eapply wp_mono; [eapply H; [len|exact Hc|len]|].
    intros h s (w' & sg' & f' & n' & -> & X1 & S1 & L1 & C1 & R1).
    apply wp_bind. apply (render_at E B _ (L "`" ++ x ++ L "'::`" ++ dec_N v ++ L "'")); [exact HT| |].
    - apply emits_seq; [apply (emits_put E (L "`")); repeat constructor|]. apply emits_seq.
      + apply (output_emits E w'); [apply C1|exact R1|reflexivity].
      + apply emits_put. repeat apply ustr_app; [repeat constructor|apply ustr_dec|repeat constructor].
    - intros Hu. eapply wp_new_known; [exact C1|len|]. intros Hc' Hm.
      eapply fin_intro; [eapply ext_trans; [exact X1|apply ext_app]|eapply ext_trans; [exact S1|apply ext_app]|len|exact Hc'|].
      eapply more_DS; [exact Hm|reflexivity|]. apply named_dsh. exact Hu.
  Qed.

  Lemma c_pc_local G nt v t x id G' : fits E (L "`" ++ x ++ L "'::`" ++ dec_N v ++ L "'") -> scope_number nt v -> P_symbol G t x id G' ->
    P_piece G (L "?" ++ nt ++ L "?" ++ t) (L "`" ++ x ++ L "'::`" ++ dec_N v ++ L "'") G'.
  Proof.
    intros HT Hn H. split; [eexists _, _; split; reflexivity|]. intros fu rest w sg f n. revert fu w sg f n.
    apply local_at; [exact HT|exact Hn|]. eapply symbol_shown. apply symbol_there. exact H.
  Qed.

  (** ** MD5 names and string literals as symbols *)
  Lemma md5_read h (lo : bool) rest G : md5_key h -> (lo = false -> no_locator rest) ->
    let x := md5_text h ++ (if lo then locator else []) in symbol_at rest G x x x G.
  Proof.
    intros [Hu Hh] Hl x. split; [eexists; reflexivity|]. intros fu w sg f n Hfu Hc HB.
    assert (Hlen : 4 <= length x) by (unfold x, md5_text; len). destruct fu as [|fu]; [lia|]. cbn [knot_of k_parse]. unfold do_parse.
    eapply wp_step; [apply text_at|].
    assert (Hx : x ++ rest = L "??@" ++ h ++ L "@" ++ ((if lo then locator else []) ++ rest)).
    { unfold x, md5_text. rewrite <- !app_assoc. reflexivity. }
    assert (Hux : ustr x).
    { unfold x, md5_text. repeat apply ustr_app; [repeat constructor|exact Hu|repeat constructor|destruct lo; repeat constructor]. }
    rewrite Hx. change (starts_with (L ".") (L "??@" ++ ?y)) with false. change (starts_with (L "??@") (L "??@" ++ ?y)) with true. cbv iota.
    unfold demangle_md5_name. eapply wp_step; [apply text_at|]. eapply wp_step; [apply expects_yes|]. eapply wp_step; [apply text_at|].
    rewrite (find_char_app (ch "@") h ((if lo then locator else []) ++ rest) Hh : find_char (ch "@") (h ++ L "@" ++ _) = _).
    eapply wp_step; [reflexivity|].
    assert (Hb : str_bytes h + 1 = str_bytes (h ++ L "@")) by (rewrite str_bytes_app; reflexivity).
    rewrite Hb, (app_assoc h (L "@")). eapply wp_step; [apply bytes_at|]. eapply wp_step; [reflexivity|].
    eapply (wp_step _ _ _ _ _ lo (at_ rest sg f n)).
    { destruct lo; [apply (eats_yes locator)|]. cbn [app]. apply eats_no. destruct (strip_prefix (L "??_R4@") rest) as [r|] eqn:Hs; [|reflexivity].
      apply strip_prefix_spec in Hs. exfalso. exact (Hl eq_refl r Hs). }
    cbv zeta.
    assert (Hsplit : split_bytes (str_bytes h + 3 + (if lo then 6 else 0) + 1) (L "??@" ++ (h ++ L "@") ++ (if lo then locator else []) ++ rest) = Some (x, rest)).
    { apply split_bytes_spec. split.
      - unfold x, md5_text. rewrite <- !app_assoc. reflexivity.
      - unfold x, md5_text. rewrite !str_bytes_app. destruct lo; cbn; lia. }
    rewrite Hsplit. unfold synthesize_from_name, synthesize_from_id.
    apply wp_bind. apply wp_bind. eapply wp_new_known; [exact Hc|lia|]. intros C1 M1. apply wp_bind.
    eapply wp_new_known; [exact C1|len|]. intros C2 M2. eapply wp_new_known; [exact C2|len|]. intros C3 M3.
    eapply wp_new_known; [exact C3|len|]. intros C4 M4.
    assert (D1 : DS (w ++ [Some (NNamed None x)]) KIdent (length sg) x) by (eapply more_DS; [exact M1|reflexivity|apply named_dsh; exact Hux]).
    set (w1 := w ++ [Some (NNamed None x)]) in *. set (sg1 := sg ++ [NNamed None x]) in *.
    set (w2 := w1 ++ [Some (NNodes [length sg])]) in *. set (sg2 := sg1 ++ [NNodes [length sg]]) in *.
    set (w3 := w2 ++ [Some (NQual (length sg1))]) in *. set (sg3 := sg2 ++ [NQual (length sg1)]) in *.
    set (w4 := w3 ++ [Some (NMd5 (length sg2))]) in *. set (sg4 := sg3 ++ [NMd5 (length sg2)]) in *.
    assert (D3 : DS w3 KQual (length sg2) x).
    { eapply more_DS; [exact M3|reflexivity|]. exists [length sg], [x]. split; [apply M2|]. split; [|reflexivity]. constructor; [|constructor].
      eapply DS_any. eapply DS_sub; [|exact D1]. apply sub_app. }
    assert (D4 : DS w4 KSym (length sg3) x) by (eapply more_DS; [exact M4|reflexivity|exact D3]).
    eapply fin_intro; [|eapply ext_trans; [apply ext_app|]; eapply ext_trans; [apply ext_app|]; eapply ext_trans; apply ext_app| |exact C4|].
    - eapply ext_trans; [apply ext_app|]; eapply ext_trans; [apply ext_app|]; eapply ext_trans; apply ext_app.
    - unfold sg4, sg3, sg2, sg1. len.
    - split; [exact D4|]. exists (NMd5 (length sg2)), (length sg2), (length sg1), [], (length sg). split; [apply M4|]. do 2 (split; [reflexivity|]).
      split; [apply sub_app; apply M3|]. split; [apply sub_app, sub_app; apply M2|].
      eapply DS_sub; [|exact D1]. intros j nj Hj. do 3 apply sub_app. exact Hj.
  Qed.
  Lemma md5_open h rest G : md5_key h -> no_locator rest -> symbol_at rest G (md5_text h) (md5_text h) (md5_text h) G.
  Proof. intros H Hr. pose proof (md5_read h false rest G H (fun _ => Hr)) as X. cbv zeta in X. rewrite app_nil_r in X. exact X. Qed.
  Lemma c_sy_md5 G h : md5_key h -> P_symbol G (md5_text h ++ locator) (md5_text h ++ locator) (md5_text h ++ locator) G.
  Proof.
    intros H. pose proof (fun rest => md5_read h true rest G H (fun Hf => ltac:(discriminate Hf))) as X. cbv zeta in X. split; [apply (X [])|].
    intros fu rest w sg f n. destruct (X rest) as [_ Y]. apply Y.
  Qed.
  (** A string literal has no name. *)
  Definition litR (x : str) (w : world) (h : handle) : Prop :=
    DS w KSym h x /\ exists nd, wget w h = Some nd /\ is_sym nd = true /\ sym_name nd = None.
  Lemma literal_at rest G t x : literal (e_out E) t x ->
    (exists r, t = ch "?" :: r) /\ rd1 rest 0 t G G (fun fu => k_parse (K fu)) (fun _ w' _ h => litR x w' h).
  Proof.
    intros H. destruct (literal_read E t x H) as (u & y & trunc & k & -> & Hy & -> & Hr). split; [eexists; reflexivity|].
    intros fu w sg f n Hfu Hc HB. destruct fu as [|fu]; [len|]. cbn [knot_of k_parse]. unfold do_parse. rewrite <- app_assoc.
    eapply wp_step; [apply text_at|]. change (starts_with (L ".") (L "??_C" ++ ?z)) with false. change (starts_with (L "??@") (L "??_C" ++ ?z)) with false. cbv iota.
    eapply wp_step; [apply (expect_yes (ch "?"))|]. apply wp_bind. unfold demangle_special_intrinsic.
    eapply (wp_step _ _ _ _ _ (Some SStringLiteralSymbol) (at_ (u ++ rest) sg f n)).
    { change (map N_of_ascii (list_ascii_of_string "?_C") ++ u ++ rest) with (L "?_C" ++ u ++ rest).
      unfold special_table. cbn [consume_special]. do 5 (erewrite bind_eq by (apply eats_no; reflexivity); cbv iota).
      erewrite bind_eq by apply (eats_yes (L "?_C")). reflexivity. }
    cbv iota. apply wp_bind. unfold wp at 1. rewrite Hr. change (wp okerr (intern E (NStrLit None y trunc k)) (fun h s' => wp okerr (ret (Some h))
      (fun o s'' => wp okerr (match o with Some h => ret h | None => demangle_declarator E (K fu) end)
        (fin E w sg (length sg + 2 * length (L "??_C" ++ u) - 0) rest G (fun w' _ h => litR (str_prefix k ++ y ++ L """" ++ (if trunc then L "..." else [])) w' h)) s'') s') (at_ rest sg f n)).
    eapply wp_new_known; [exact Hc|len|]. intros C1 M1. apply wp_ret. apply wp_ret.
    eapply fin_intro; [apply ext_app|apply ext_app|len|exact C1|]. split; [|exists (NStrLit None y trunc k); split; [apply M1|auto]].
    eapply more_DS; [exact M1|reflexivity|]. split; [exact Hy|reflexivity].
  Qed.
  Lemma literal_shown rest G t x : literal (e_out E) t x -> shown_at rest G t x G.
  Proof.
    intros H. destruct (literal_at rest G t x H) as [H1 H2]. split; [exact H1|]. intros fu w sg f n Hfu Hc HB.
    eapply wp_mono; [eapply H2; [exact Hfu|exact Hc|exact HB]|].
    intros h s Hf. eapply fin_mono; [exact Hf|apply ext_refl|apply ext_refl|lia|]. intros w' sg' _ _ _ [HR _]. exact HR.
  Qed.
  Lemma c_pc_local_literal G nt v t x : fits E (L "`" ++ x ++ L "'::`" ++ dec_N v ++ L "'") -> scope_number nt v -> literal (e_out E) t x ->
    P_piece G (L "?" ++ nt ++ L "?" ++ t) (L "`" ++ x ++ L "'::`" ++ dec_N v ++ L "'") G.
  Proof.
    intros HT Hn H. split; [eexists _, _; split; reflexivity|]. intros fu rest w sg f n. revert fu w sg f n.
    apply local_at; [exact HT|exact Hn|]. apply literal_shown. exact H.
  Qed.

  (** ** Scope chains *)
  Lemma forall2_ds w w' k l xs : sub w w' -> Forall2 (DS w k) l xs -> Forall2 (DS w' k) l xs.
  Proof. intros H. apply Forall2_mono. intros h x. apply DS_sub. exact H. Qed.
  Lemma c_ch_end G : P_chain G (L "@") [] G.
  Proof.
    split; [len|]. intros loop acc Hl fu rest w sg f n Hfu Hc HB. destruct loop as [|loop]; [len|]. cbn [scope_loop].
    eapply wp_step; [apply (eat_yes (ch "@"))|]. apply wp_ret. eapply fin_intro; [apply ext_refl|apply ext_refl|len|exact Hc|].
    exists []. split; [reflexivity|constructor].
  Qed.
  Lemma chain_cons G t x G1 t' xs G2 : (exists c r, t = c :: r /\ (c =? ch "@")%N = false) ->
    (forall rest, rd1 (t' ++ rest) 0 t G G1 (fun fu => demangle_name_scope_piece E (K fu)) (fun _ w' _ h => DS w' KIdent h x)) ->
    P_chain G1 t' xs G2 -> P_chain G (t ++ t') (xs ++ [x]) G2.
  Proof.
    intros (c & r & Ht & Hcc) H1 [Hl' H2]. assert (Hlt : 1 <= length t) by (rewrite Ht; cbn; lia). split; [len|].
    intros loop acc Hl fu rest w sg f n Hfu Hc HB. destruct loop as [|loop]; [len|]. cbn [scope_loop]. rewrite <- app_assoc.
    eapply wp_step; [apply eat_no; rewrite Ht; exact Hcc|]. eapply wp_step; [apply text_at|].
    assert (He : is_empty (t ++ t' ++ rest) = false) by (rewrite Ht; reflexivity). rewrite He.
    apply wp_bind. eapply wp_mono; [eapply (H1 rest); [len|exact Hc|len]|]. intros h s (w1 & sg1 & f1 & n1 & -> & X1 & S1 & L1 & C1 & R1).
    eapply wp_mono; [eapply (H2 loop (h :: acc)); [len|len|exact C1|len]|]. intros l s Hf.
    eapply fin_mono; [exact Hf|exact X1|exact S1|len|]. intros w' sg' Xw Sw _ (hs & -> & Hhs).
    exists (hs ++ [h]). split; [rewrite <- app_assoc; reflexivity|]. apply Forall2_app; [exact Hhs|]. constructor; [|constructor].
    eapply DS_sub; [|exact R1]. apply ext_sub. exact Xw.
  Qed.
  Lemma c_ch_cons G t x G1 t' xs G2 : P_piece G t x G1 -> P_chain G1 t' xs G2 -> P_chain G (t ++ t') (xs ++ [x]) G2.
  Proof. intros [H0 H1]. apply chain_cons; [exact H0|]. intros rest fu w sg f n. apply H1. Qed.
  Lemma c_ch_local_md5 G nt v h t' xs G2 : fits E (L "`" ++ md5_text h ++ L "'::`" ++ dec_N v ++ L "'") -> scope_number nt v -> md5_key h ->
    (forall rest, no_locator (t' ++ rest)) -> P_chain G t' xs G2 ->
    P_chain G ((L "?" ++ nt ++ L "?" ++ md5_text h) ++ t') (xs ++ [L "`" ++ md5_text h ++ L "'::`" ++ dec_N v ++ L "'"]) G2.
  Proof.
    intros HT Hn Hh Hl. apply chain_cons; [eexists _, _; split; reflexivity|]. intros rest. apply local_at; [exact HT|exact Hn|].
    eapply symbol_shown. apply md5_open; [exact Hh|apply Hl].
  Qed.
  Lemma c_ch_odd G x t' xs G2 : odd_scope x t' -> P_chain (remember (L "?" ++ x) G) t' xs G2 ->
    P_chain G (L "?" ++ x ++ L "@" ++ t') (xs ++ [L "?" ++ x]) G2.
  Proof.
    intros Ho [Hl' H2]. split; [len|].
    intros loop acc Hl fu rest w sg f n Hfu Hc HB. destruct loop as [|loop]; [len|]. cbn [scope_loop]. rewrite <- !app_assoc.
    eapply wp_step; [apply eat_no; reflexivity|]. eapply wp_step; [apply text_at|].
    change (is_empty (L "?" ++ x ++ L "@" ++ t' ++ rest)) with false. cbv iota.
    apply wp_bind. unfold demangle_name_scope_piece. eapply wp_step; [apply text_at|].
    change (first_is is_digit (L "?" ++ x ++ L "@" ++ t' ++ rest)) with false. cbv iota.
    assert (Ht : t' <> []) by (intros ->; cbn in Hl'; lia).
    rewrite (odd_pattern x t' rest Ho Ht).
    pose proof Ho as (Hn & HA & _). pose proof (odd_plain _ Hn) as Hp. pose proof Hn as (_ & _ & HD).
    change (L "?$") with (ch "?" :: [ch "$"]). rewrite (odd_start x _ _ HD) by discriminate.
    change (L "?A") with (ch "?" :: [ch "A"]). rewrite (odd_start x _ _ HA) by discriminate.
    cbv iota. rewrite (app_assoc (L "?") x (L "@" ++ t' ++ rest)).
    eapply wp_mono; [eapply name_known0; [exact Hc|exact Hp|len]|].
    intros h s (w1 & sg1 & f1 & n1 & -> & X1 & S1 & L1 & C1 & R1).
    eapply wp_mono; [eapply (H2 loop (h :: acc)); [len|len|exact C1|len]|]. intros l s Hf.
    eapply fin_mono; [exact Hf|exact X1|exact S1|len|]. intros w' sg' Xw Sw _ (hs & -> & Hhs).
    exists (hs ++ [h]). split; [rewrite <- app_assoc; reflexivity|]. apply Forall2_app; [exact Hhs|]. constructor; [|constructor].
    eapply DS_sub; [|exact R1]. apply ext_sub. exact Xw.
  Qed.
  Definition chainR (id : handle) (xs : list str) (n0 : nat) (w : world) (sg : store) (qn : handle) : Prop :=
    exists c hs, fresh n0 w sg qn (NQual c) /\ fresh n0 w sg c (NNodes (hs ++ [id])) /\ c <> qn /\ Forall2 (DS w KIdent) hs xs.
  Lemma chain_at id G t xs G' : P_chain G t xs G' ->
    rd 0 t G G' (fun fu => demangle_name_scope_chain E (K fu) id) (chainR id xs).
  Proof.
    intros [Hl H] fu rest w sg f n Hfu Hc HB. unfold demangle_name_scope_chain. eapply wp_step; [apply text_at|].
    apply wp_bind. eapply wp_mono; [eapply H; [len|exact Hfu|exact Hc|exact HB]|].
    intros l s (w1 & sg1 & f1 & n1 & -> & X1 & S1 & L1 & C1 & hs & -> & R1). pose proof (ext_len _ _ S1).
    apply wp_bind. eapply wp_new_hidden; [exact C1|len|]. intros C2. eapply wp_new_hidden; [exact C2|len|]. intros C3.
    eapply fin_intro; [eapply ext_trans; [exact X1|]; eapply ext_trans; apply ext_app|eapply ext_trans; [exact S1|]; eapply ext_trans; apply ext_app|len|exact C3|].
    exists (length sg1), hs. split; [|split; [|split]].
    - eapply fresh_le; [|apply fresh_new; eapply ctx_len; exact C2]. len.
    - eapply fresh_ext; [apply ext_app|apply ext_app|]. eapply fresh_le; [|apply fresh_new; eapply ctx_len; exact C1]. len.
    - len.
    - eapply forall2_ds; [|exact R1]. apply ext_sub. eapply ext_trans; apply ext_app.
  Qed.
  (** Once the last component is known, so is the whole name. *)
  Lemma reveal_chain w0 n0 w sg f n G id xs x qn : ctx w sg f n G -> chainR id xs n0 w sg qn -> DS w KIdent id x ->
    length w0 <= n0 -> ext w0 w -> exists w', ext w0 w' /\ sub w w' /\ ctx w' sg f n G /\ DS w' KQual qn (qualified (xs ++ [x])) /\
      (forall j nd, fresh n0 w sg j nd -> (forall c, nd <> NQual c) -> (forall l, nd <> NNodes l) -> fresh n0 w' sg j nd) /\
      exists c hs, wget w' qn = Some (NQual c) /\ wget w' c = Some (NNodes (hs ++ [id])).
  Proof.
    intros Hc (c & hs & Hq & Hcn & Hne & Hhs) Hid H0 Hx.
    destruct (fresh_reveal E w0 _ _ _ _ _ _ _ _ Hc Hcn H0 Hx) as (X1 & C1 & M1).
    assert (Hq1 : fresh n0 (reveal w c (NNodes (hs ++ [id]))) sg qn (NQual c)).
    { destruct Hq as (A1 & A2 & A3). split; [exact A1|]. split; [|exact A3]. apply reveal_hid; auto. }
    destruct (fresh_reveal E w0 _ _ _ _ _ _ _ _ C1 Hq1 H0 X1) as (X2 & C2 & M2).
    eexists. split; [exact X2|]. split; [eapply sub_trans; [apply M1|apply M2]|]. split; [exact C2|]. split; [|split].
    - eapply more_DS; [exact M2|reflexivity|]. exists (hs ++ [id]), (xs ++ [x]). split; [apply M1|]. split; [|reflexivity].
      apply Forall2_app.
      + eapply Forall2_mono; [|exact Hhs]. intros h y Hy. eapply DS_any. eapply DS_sub; [apply M1|exact Hy].
      + constructor; [|constructor]. eapply DS_any. eapply DS_sub; [apply M1|exact Hid].
    - intros j nd (A1 & A2 & A3) N1 N2. split; [exact A1|]. split; [|exact A3]. destruct Hq as (_ & _ & Hq). destruct Hcn as (_ & _ & Hcn).
      apply reveal_hid; [|apply reveal_hid; [|exact A2]]; intros ->; [apply (N1 c)|apply (N2 (hs ++ [id]))]; congruence.
    - exists c, hs. split; [apply M2|]. apply M2. apply M1.
  Qed.

  (** ** Names of types *)
  Lemma c_tn_ref G i x : i < 10 -> nth_error (fst G) i = Some x -> P_tname G [digit_char i] x G.
  Proof.
    intros Hi Hx. split; [len|]. intros fu rest w sg f n Hfu Hc HB. unfold demangle_unqualified_type_name. eapply wp_step; [apply text_at|].
    assert (H1 : first_is is_digit ([digit_char i] ++ rest) = true) by (apply digit_is; exact Hi). rewrite H1.
    eapply wp_mono; [eapply backref_at; eassumption|]. intros h s Hf.
    eapply fin_mono; [exact Hf|apply ext_refl|apply ext_refl|len|]. intros w' sg' _ _ _ [H _]. exact H.
  Qed.
  Lemma c_tn_name G x : ident x -> P_tname G (x ++ L "@") x (remember x G).
  Proof.
    intros Hx. split; [len|]. destruct (ident_head x Hx) as (c & r & Hxe & Hd & Hq & Ha).
    intros fu rest w sg f n Hfu Hc HB. unfold demangle_unqualified_type_name. rewrite <- app_assoc. eapply wp_step; [apply text_at|].
    assert (H1 : first_is is_digit (x ++ L "@" ++ rest) = false) by (rewrite Hxe; exact Hd).
    assert (H2 : starts_with (L "?$") (x ++ L "@" ++ rest) = false) by (rewrite Hxe; apply not_q; exact Hq).
    rewrite H1, H2. assert (Hl : 1 <= length x) by (rewrite Hxe; cbn; lia).
    eapply wp_mono; [eapply name_known; [exact Hc|exact Hx|len]|]. intros h s Hf.
    eapply fin_mono; [exact Hf|apply ext_refl|apply ext_refl|len|]. auto.
  Qed.
  Lemma c_tn_odd G x : odd_name x -> P_tname G (L "?" ++ x ++ L "@") (L "?" ++ x) (remember (L "?" ++ x) G).
  Proof.
    intros Hx. split; [len|]. pose proof (odd_plain _ Hx) as Hp. pose proof Hx as (_ & _ & HD).
    intros fu rest w sg f n Hfu Hc HB. unfold demangle_unqualified_type_name. rewrite <- !app_assoc. eapply wp_step; [apply text_at|].
    change (first_is is_digit (L "?" ++ x ++ L "@" ++ rest)) with false. cbv iota.
    change (L "?$") with (ch "?" :: [ch "$"]). rewrite (odd_start x _ _ HD) by discriminate.
    cbv iota. rewrite (app_assoc (L "?") x (L "@" ++ rest)).
    eapply wp_mono; [eapply name_known0; [exact Hc|exact Hp|len]|]. intros h s Hf.
    eapply fin_mono; [exact Hf|apply ext_refl|apply ext_refl|len|]. auto.
  Qed.
  Lemma c_tn_template G t x : P_template t x -> P_tname G t x (remember x G).
  Proof.
    intros [(r & ->) H]. split; [len|]. intros fu rest w sg f n Hfu Hc HB. unfold demangle_unqualified_type_name. eapply wp_step; [apply text_at|].
    change (first_is is_digit ((L "?$" ++ r) ++ rest)) with false.
    change (starts_with (L "?$") ((L "?$" ++ r) ++ rest)) with true. cbv iota. apply H; assumption.
  Qed.
  Lemma c_qn_intro G t x G1 t' xs G2 : P_tname G t x G1 -> P_chain G1 t' xs G2 -> P_qname G (t ++ t') (xs ++ [x]) G2.
  Proof.
    intros [Hl H1] H2. split; [len|]. intros fu rest w sg f n Hfu Hc HB. unfold demangle_fully_qualified_type_name. rewrite <- app_assoc.
    apply wp_bind. eapply wp_mono; [eapply H1; [len|exact Hc|len]|]. intros id s (w1 & sg1 & f1 & n1 & -> & X1 & S1 & L1 & C1 & R1).
    eapply wp_mono; [eapply (chain_at id); [exact H2|len|exact C1|len]|].
    intros qn s (w2 & sg2 & f2 & n2 & -> & X2 & S2 & L2 & C2 & R2).
    destruct (reveal_chain w1 _ _ _ _ _ _ id xs x qn C2 R2) as (w3 & X3 & U3 & C3 & D3 & _).
    - eapply DS_sub; [apply ext_sub; exact X2|exact R1].
    - rewrite (ctx_len _ _ _ _ _ _ C1). lia.
    - exact X2.
    - eapply fin_intro; [eapply ext_trans; eauto|eapply ext_trans; eauto|len|exact C3|exact D3].
  Qed.

  (** ** Templates *)
  Lemma c_ta_end G : P_targs G (L "@") [] G.
  Proof.
    split; [len|]. intros loop acc Hl fu rest w sg f n Hfu Hc HB. destruct loop as [|loop]; [len|]. cbn [targs_loop].
    eapply wp_step; [apply (eat_yes (ch "@"))|]. apply wp_ret. eapply fin_intro; [apply ext_refl|apply ext_refl|len|exact Hc|].
    exists []. split; [rewrite app_nil_r; reflexivity|constructor].
  Qed.
  Lemma eat_first_sep p t sg f n : In p targ_separators -> 
    eat_first [L "$S"; L "$$V"; L "$$$V"; L "$$Z"] (at_ (p ++ t) sg f n) = Ok (Some p, at_ t sg f n).
  Proof. intros H. cbn in H. destruct H as [<-|[<-|[<-|[<-|[]]]]]; cbn; rewrite ?Nat.sub_0_r; reflexivity. Qed.
  Lemma eat_first_none l t sg f n : (forall p, In p l -> strip_prefix p t = None) ->
    eat_first l (at_ t sg f n) = Ok (None, at_ t sg f n).
  Proof.
    induction l as [|p l IH]; intros H; [reflexivity|]. cbn [eat_first].
    rewrite (bind_eq _ _ _ _ _ (eats_no p t _ _ _ (H p (or_introl eq_refl)))). apply IH. intros q Hq. apply H. right. exact Hq.
  Qed.
  Lemma c_ta_sep G s t xs G' : In s targ_separators -> P_targs G t xs G' -> P_targs G (s ++ t) xs G'.
  Proof.
    intros Hs [Hl H]. split; [len|]. intros loop acc Hlo fu rest w sg f n Hfu Hc HB.
    assert (Hsl : 2 <= length s /\ forall r, starts (ch "@") (s ++ r) = false).
    { cbn in Hs. destruct Hs as [<-|[<-|[<-|[<-|[]]]]]; (split; [cbn; lia|reflexivity]). }
    destruct loop as [|loop]; [len|]. cbn [targs_loop]. rewrite <- app_assoc.
    eapply wp_step; [apply eat_no; apply Hsl|]. eapply wp_step; [apply eat_first_sep; exact Hs|].
    eapply wp_mono; [eapply (H loop acc); [len|len|exact Hc|len]|]. intros l s' Hf.
    eapply fin_mono; [exact Hf|apply ext_refl|apply ext_refl|len|]. auto.
  Qed.
  Lemma targs_cons G t x G1 t' xs G2 :
    (1 <= length t /\ forall r, starts (ch "@") (t ++ r) = false /\ forall p, In p targ_separators -> strip_prefix p (t ++ r) = None) ->
    (forall rest, rd1 (t' ++ rest) 0 t G G1 (fun fu => template_arg E (K fu)) (fun _ w' _ h => DS w' KAny h x)) ->
    P_targs G1 t' xs G2 -> P_targs G (t ++ t') (x :: xs) G2.
  Proof.
    intros (Hlt & Hh) H1 [Hl' H2]. split; [len|]. intros loop acc Hlo fu rest w sg f n Hfu Hc HB.
    destruct loop as [|loop]; [len|]. cbn [targs_loop]. rewrite <- app_assoc. destruct (Hh (t' ++ rest)) as [Hh1 Hh2].
    eapply wp_step; [apply eat_no; exact Hh1|]. eapply wp_step; [apply eat_first_none; exact Hh2|]. eapply wp_step; [apply text_at|].
    assert (He : is_empty (t ++ t' ++ rest) = false) by (destruct t; [cbn in Hlt; lia|reflexivity]). rewrite He.
    apply wp_bind. eapply wp_mono; [eapply (H1 rest); [len|exact Hc|len]|]. intros h s (w1 & sg1 & f1 & n1 & -> & X1 & S1 & L1 & C1 & R1).
    eapply wp_mono; [eapply (H2 loop (h :: acc)); [len|len|exact C1|len]|]. intros l s Hf.
    eapply fin_mono; [exact Hf|exact X1|exact S1|len|]. intros w' sg' Xw Sw _ (hs & -> & Hhs).
    exists (h :: hs). split; [cbn [rev]; rewrite <- app_assoc; reflexivity|]. constructor; [|exact Hhs].
    eapply DS_sub; [|exact R1]. apply ext_sub. exact Xw.
  Qed.
  Lemma c_ta_cons G t x G1 t' xs G2 : P_targ G t x G1 -> P_targs G1 t' xs G2 -> P_targs G (t ++ t') (x :: xs) G2.
  Proof. intros [H0 H1]. apply targs_cons; [exact H0|]. intros rest fu w sg f n. apply H1. Qed.
  (** Base name and arguments, from empty tables, up to the restoration of the tables. *)
  Definition tinst_body (K : knot) : M handle :=
    id <- demangle_unqualified_symbol_name E K NBB_Simple ;;
    tp <- demangle_template_parameter_list E K ;;
    modify KIdent id (set_template_params tp) ;;;
    ret id.
  Lemma ctx_empty w sg f n G : ctx w sg f n G -> ctx w sg [] [] empty_tab.
  Proof. intros (H & _). split; [exact H|]. split; constructor. Qed.
  Lemma c_tb_base b i G1 : ubase empty_tab b i G1 -> P_tbase b i G1.
  Proof.
    intros Hb. destruct (ubase_at _ _ _ _ Hb) as [Hl H]. split; [exact Hl|]. intros fu rest w sg f n Hfu Hc HB.
    eapply wp_mono; [eapply H; eassumption|]. intros h s Hf. eapply fin_mono; [exact Hf|apply ext_refl|apply ext_refl|lia|].
    intros w' sg' _ _ _ (nd & F1 & I1). exists nd, None. auto.
  Qed.
  Lemma unnamed_read G c : In c unnamed_codes ->
    rd 0 (L "?" ++ c) G G (fun fu => demangle_unqualified_symbol_name E (K fu) NBB_Simple) (ubaseR (IText [])).
  Proof.
    intros Hi fu rest w sg f n Hfu Hc HB. unfold demangle_unqualified_symbol_name. rewrite <- app_assoc. eapply wp_step; [apply text_at|].
    destruct (unnamed_head _ Hi) as (r & Hr & Hlr).
    assert (H1 : first_is is_digit (L "?" ++ c ++ rest) = false) by reflexivity.
    assert (H2 : starts_with (L "?$") (L "?" ++ c ++ rest) = false) by (rewrite Hr; reflexivity).
    rewrite H1, H2. change (starts_with (L "?") (L "?" ++ c ++ rest)) with true. cbv iota.
    unfold wp. rewrite (unnamed_at sg f n E c rest Hi).
    change (wp okerr (intern E (NIntrinsic None None)) (fin E w sg (length sg + 2 * length (L "?" ++ c) - 0) rest G (ubaseR (IText []) (length sg))) (at_ rest sg f n)).
    eapply wp_new_hidden; [exact Hc|len|]. intros Hc'. eapply fin_intro; [apply ext_app|apply ext_app|len|exact Hc'|].
    exists (NIntrinsic None None). split; [apply fresh_new; eapply ctx_len; exact Hc|]. right. right. right. auto.
  Qed.
  Lemma unnamed_len c : In c unnamed_codes -> 2 <= length (L "?" ++ c).
  Proof. intros Hi. destruct (unnamed_head _ Hi) as (r & -> & _). len. Qed.
  Lemma c_tb_unnamed c : In c unnamed_codes -> P_tbase (L "?" ++ c) (IText []) empty_tab.
  Proof.
    intros Hi. split; [apply unnamed_len; exact Hi|]. intros fu rest w sg f n Hfu Hc HB.
    eapply wp_mono; [eapply unnamed_read; eassumption|]. intros h s Hf. eapply fin_mono; [exact Hf|apply ext_refl|apply ext_refl|lia|].
    intros w' sg' _ _ _ (nd & F1 & I1). exists nd, None. auto.
  Qed.
  (** The instantiation with tables [f], [n] outside, before remembering. *)
  Lemma tinst_at b i G1 a xs G2 : P_tbase b i G1 -> P_targs G1 a xs G2 ->
    forall nb fu rest w sg f n G, length (b ++ a) <= fu -> ctx w sg f n G -> length sg + 2 * length (b ++ a) + 1 <= B ->
    forall Q : handle -> st -> Prop,
    (forall h w' sg', ext w w' -> ext sg sg' -> length sg' <= length sg + 2 * length (b ++ a) -> ctx w' sg' f n G ->
       (exists nd tp, fresh (length sg) w' sg' h nd /\ idshape (Some tp) i nd /\ idnode w' (with_targs i (L "<" ++ join (L ", ") xs ++ L ">")) nd) ->
       wp okerr (if nbb_template nb then
                   n <- res_ KIdent h ;;
                   if is_conv_or_structor n then fail InvalidTemplateInstantiationName
                   else memorize_identifier E h ;;; ret h
                 else ret h) Q (at_ rest sg' f n)) ->
    wp okerr (demangle_template_instantiation_name E (K fu) nb) Q (at_ (L "?$" ++ b ++ a ++ rest) sg f n).
  Proof.
    intros Hb [Hla Ha] nb fu rest w sg f n G Hfu Hc HB Q HQ. unfold demangle_template_instantiation_name.
    destruct Hb as [Hlb Hub].
    eapply wp_step; [apply expects_yes|]. eapply wp_step; [apply get_at|].
    eapply (wp_step _ (fun s => Ok (tt, set_names [] (set_fps [] s))) _ _ _ tt); [reflexivity|].
    change (set_names [] (set_fps [] (at_ (b ++ a ++ rest) sg f n))) with (at_ (b ++ a ++ rest) sg [] []).
    apply wp_bind. eapply wp_mono; [eapply Hub; [len|eapply ctx_empty; exact Hc|len]|].
    intros id s (w1 & sg1 & f1 & n1 & -> & X1 & S1 & L1 & C1 & nd & tp0 & F1 & I1). pose proof (ext_len _ _ S1) as Hs1.
    apply wp_bind. unfold demangle_template_parameter_list. eapply wp_step; [apply text_at|]. apply wp_bind.
    eapply wp_mono; [eapply Ha; [len|len|exact C1|len]|].
    intros l s (w2 & sg2 & f2 & n2 & -> & X2 & S2 & L2 & C2 & hs & -> & R2). cbn [rev app]. pose proof (ext_len _ _ S2) as Hs2.
    eapply wp_new_known; [exact C2|len|]. intros C3 M3.
    assert (F3 : fresh (length sg) (w2 ++ [Some (NNodes hs)]) (sg2 ++ [NNodes hs]) id nd).
    { eapply fresh_ext; [eapply ext_trans; [exact X2|apply ext_app]|eapply ext_trans; [exact S2|apply ext_app]|exact F1]. }
    apply wp_bind. eapply (fresh_modify E B _ _ _ _ _ _ _ _ _ nd (length sg) sg); [exact C3|exact F3|eapply idshape_ident; exact I1| |lia|].
    { eapply ext_trans; [exact S1|]. eapply ext_trans; [exact S2|apply ext_app]. }
    intros C4 F4 S4 _ L4.
    match goal with |- wp _ (bind ?m _) _ ?s => eapply (wp_step _ m _ _ s tt); [reflexivity|] end.
    match goal with |- wp _ _ _ (set_names _ (set_fps _ (at_ _ ?S _ _))) => change (wp okerr (if nbb_template nb then
                   n <- res_ KIdent id ;;
                   if is_conv_or_structor n then fail InvalidTemplateInstantiationName
                   else memorize_identifier E id ;;; ret id
                 else ret id) Q (at_ rest S f n)) end.
    apply (HQ _ (w2 ++ [Some (NNodes hs)])).
    - eapply ext_trans; [exact X1|]. eapply ext_trans; [exact X2|apply ext_app].
    - exact S4.
    - rewrite L4. len.
    - eapply ctx_mono; [exact Hc| |apply C4]. apply ext_sub. eapply ext_trans; [exact X1|]. eapply ext_trans; [exact X2|apply ext_app].
    - eexists _, _. split; [exact F4|]. pose proof (idshape_set _ _ _ (length sg2) I1) as I2. split; [exact I2|]. eapply idshape_node; [exact I2|].
      eapply more_DS; [exact M3|reflexivity|]. exists xs. split; [|reflexivity]. exact R2.
  Qed.
  Lemma c_tb_again b i G1 a xs G2 : P_tbase b i G1 -> P_targs G1 a xs G2 -> P_tbase (L "?$" ++ b ++ a) i empty_tab.
  Proof.
    intros Hb Ha. split; [destruct Hb; len|]. intros fu rest w sg f n Hfu Hc HB. unfold demangle_unqualified_symbol_name. eapply wp_step; [apply text_at|].
    change (first_is is_digit ((L "?$" ++ b ++ a) ++ rest)) with false.
    change (starts_with (L "?$") ((L "?$" ++ b ++ a) ++ rest)) with true. cbv iota.
    destruct fu as [|fu]; [len|]. cbn [knot_of k_tinst]. rewrite <- !app_assoc.
    eapply (tinst_at _ _ _ _ _ _ Hb Ha); [len|exact Hc|len|]. intros h w1 sg1 X1 S1 L1 C1 (nd & tp & F1 & I0 & I1). cbn [nbb_template NBB_Simple]. apply wp_ret.
    eapply fin_intro; [exact X1|exact S1|len|exact C1|]. exists nd, (Some tp). auto.
  Qed.
  Lemma c_tp_intro b y G1 a xs G2 : fits E (y ++ L "<" ++ join (L ", ") xs ++ L ">") -> P_tbase b (IText y) G1 -> P_targs G1 a xs G2 ->
    P_template (L "?$" ++ b ++ a) (y ++ L "<" ++ join (L ", ") xs ++ L ">").
  Proof.
    intros HT Hb Ha. split; [eexists; reflexivity|]. intros G fu rest w sg f n Hfu Hc HB.
    destruct fu as [|fu]; [len|]. cbn [knot_of k_tinst]. rewrite <- !app_assoc.
    eapply (tinst_at _ _ _ _ _ _ Hb Ha); [len|exact Hc|len|]. intros h w1 sg1 X1 S1 L1 C1 (nd & tp & F1 & _ & I1).
    cbn [with_targs idnode] in I1. destruct I1 as (I1 & I2 & I3). cbn [nbb_template NBB_Template].
    apply wp_bind. eapply wp_resolve; [apply F1|exact I1|]. rewrite I2.
    destruct (fresh_reveal E w _ _ _ _ _ _ _ _ C1 F1 ltac:(rewrite (ctx_len _ _ _ _ _ _ Hc); lia) X1) as (X2 & C2 & M2).
    assert (D2 : DS (reveal w1 h nd) KIdent h (y ++ L "<" ++ join (L ", ") xs ++ L ">")) by (eapply more_DS; [exact M2|exact I1|exact I3]).
    apply wp_bind. eapply wp_mono; [eapply memorize_id_at; [exact HT|exact C2|exact D2|len]|].
    intros [] s (w3 & sg3 & f3 & n3 & -> & X3 & S3 & L3 & C3 & _). apply wp_ret.
    eapply fin_intro; [eapply ext_trans; eauto|eapply ext_trans; eauto|len|exact C3|]. eapply DS_sub; [apply ext_sub; exact X3|exact D2].
  Qed.

  (** ** Identifiers of symbols *)
  Lemma settle_usym w0 n0 w sg f n G h i : ctx w sg f n G -> length w0 <= n0 -> ext w0 w ->
    (exists nd, fresh n0 w sg h nd /\ idnode w i nd) -> exists w', ext w0 w' /\ ctx w' sg f n G /\ usymR i n0 w' sg h.
  Proof.
    intros Hc H0 Hx (nd & Hf & Hi). destruct i as [x|d a|a]; try (exists w; split; [exact Hx|]; split; [exact Hc|]; exists nd; auto; fail).
    destruct Hi as (I1 & I2 & I3). destruct (fresh_reveal E w0 _ _ _ _ _ _ _ _ Hc Hf H0 Hx) as (X2 & C2 & M2).
    eexists. split; [exact X2|]. split; [exact C2|]. split; [eapply more_DS; [exact M2|exact I1|exact I3]|].
    exists nd. split; [apply M2|auto].
  Qed.
  Lemma c_us_ref G i x : i < 10 -> nth_error (fst G) i = Some x -> P_usym G [digit_char i] (IText x) G.
  Proof.
    intros Hi Hx. split; [len|]. intros fu rest w sg f n Hfu Hc HB. unfold demangle_unqualified_symbol_name. eapply wp_step; [apply text_at|].
    assert (H1 : first_is is_digit ([digit_char i] ++ rest) = true) by (apply digit_is; exact Hi). rewrite H1.
    eapply wp_mono; [eapply backref_at; eassumption|]. intros h s Hf.
    eapply fin_mono; [exact Hf|apply ext_refl|apply ext_refl|len|]. intros w' sg' _ _ _ [H Hg]. split; [exact H|]. eexists. split; [exact Hg|split; reflexivity].
  Qed.
  Lemma c_us_base G t i G' : ubase G t i G' -> P_usym G t i G'.
  Proof.
    intros Hb. destruct (ubase_at _ _ _ _ Hb) as [Hl H]. split; [lia|]. intros fu rest w sg f n Hfu Hc HB.
    eapply wp_mono; [eapply H; eassumption|]. intros h s (w1 & sg1 & f1 & n1 & -> & X1 & S1 & L1 & C1 & nd & F1 & I1).
    destruct (settle_usym w (length sg) w1 sg1 f1 n1 G' h i C1) as (w2 & X2 & C2 & U2).
    - rewrite (ctx_len _ _ _ _ _ _ Hc). lia.
    - exact X1.
    - exists nd. split; [exact F1|]. apply idbase_node. exact I1.
    - eapply fin_intro; eauto.
  Qed.
  Lemma us_unnamed_at G c : In c unnamed_codes -> P_usym G (L "?" ++ c) (IText []) G.
  Proof.
    intros Hi. pose proof (unnamed_len c Hi) as Hl. split; [lia|]. intros fu rest w sg f n Hfu Hc HB.
    eapply wp_mono; [eapply unnamed_read; eassumption|]. intros h s (w1 & sg1 & f1 & n1 & -> & X1 & S1 & L1 & C1 & nd & F1 & I1).
    destruct (settle_usym w (length sg) w1 sg1 f1 n1 G h (IText []) C1) as (w2 & X2 & C2 & U2).
    - rewrite (ctx_len _ _ _ _ _ _ Hc). lia.
    - exact X1.
    - exists nd. split; [exact F1|]. apply idbase_node. exact I1.
    - eapply fin_intro; eauto.
  Qed.
  Lemma c_us_unnamed G c : In c free_codes -> P_usym G (L "?" ++ c) (IText []) G.
  Proof. intros H. apply us_unnamed_at. apply free_unnamed. exact H. Qed.
  Lemma c_us_template G b i G1 a xs G2 : P_tbase b i G1 -> P_targs G1 a xs G2 ->
    P_usym G (L "?$" ++ b ++ a) (with_targs i (L "<" ++ join (L ", ") xs ++ L ">")) G.
  Proof.
    intros Hb Ha. split; [len|]. intros fu rest w sg f n Hfu Hc HB. unfold demangle_unqualified_symbol_name. eapply wp_step; [apply text_at|].
    change (first_is is_digit ((L "?$" ++ b ++ a) ++ rest)) with false.
    change (starts_with (L "?$") ((L "?$" ++ b ++ a) ++ rest)) with true. cbv iota.
    destruct fu as [|fu]; [len|]. cbn [knot_of k_tinst]. rewrite <- !app_assoc.
    eapply (tinst_at _ _ _ _ _ _ Hb Ha); [len|exact Hc|len|]. intros h w1 sg1 X1 S1 L1 C1 (nd & tp & F1 & _ & I1). cbn [nbb_template NBB_Simple]. apply wp_ret.
    destruct (settle_usym w (length sg) w1 sg1 f n G h (with_targs i (L "<" ++ join (L ", ") xs ++ L ">")) C1) as (w2 & X2 & C2 & U2).
    - rewrite (ctx_len _ _ _ _ _ _ Hc). lia.
    - exact X1.
    - exists nd. auto.
    - eapply fin_intro; [exact X2|exact S1|len|exact C2|exact U2].
  Qed.
End Names.
