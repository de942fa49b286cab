(** An answer consists of the names of the declaration, each printed once for each time it is
    written, of decimal numbers and of words from a fixed list: nothing is invented and nothing is
    repeated (C51).  Nothing here models code: it is about the texts [Show] gives to types and
    symbols, which [Accepted] ties to the demangler. *)
From Coq Require Import Permutation.
From Verif Require Import Parser Api Utf8 Lex Safety Mangle Trip Round RoundSyms RoundSpecials Specials Accepted AllNames Show Grammar.

(** ** Specification *)
(** The words and the punctuation of C++ and of the demangler's own markers. *)
Definition vocabulary : list str :=
  [L "void"; L "bool"; L "char"; L "signed"; L "unsigned"; L "char8_t"; L "char16_t"; L "char32_t"; L "short"; L "int";
   L "long"; L "int64"; L "wchar_t"; L "float"; L "double"; L "std::nullptr_t"; L "auto"; L "decltype(auto)";
   L "class"; L "struct"; L "union"; L "enum"; L "const"; L "volatile"; L "restrict"; L "unaligned"; L "noexcept";
   L "cdecl"; L "pascal"; L "thiscall"; L "stdcall"; L "fastcall"; L "clrcall"; L "eabi"; L "vectorcall"; L "__";
   L "__attribute__((__swiftcall__))"; L "__attribute__((__swiftasynccall__))";
   L "private:"; L "protected:"; L "public:"; L "static"; L "virtual"; L "extern ""C"""; L "[thunk]:";
   L " "; L "("; L ")"; L "["; L "]"; L "*"; L "&"; L "::"; L ","; L "..."; L "-"; L "'"; L "`";
   L "`adjustor{"; L "`vtordisp{"; L "`vtordispex{"; L "}'"; L "{for `"; L "'}";
   L "`dynamic initializer for "; L "`dynamic atexit destructor for "; L "`RTTI Type Descriptor Name'"; L "`RTTI Type Descriptor'"].

(** A text that consists of the given names, one after the other, and between them of words of
    the list and of numbers. *)
Inductive spelled : list str -> str -> Prop :=
| sl_end : spelled [] []
| sl_word w l t : In w vocabulary -> spelled l t -> spelled l (w ++ t)
| sl_number n l t : spelled l t -> spelled l (dec_N n ++ t)
| sl_name x l t : spelled l t -> spelled (x :: l) (x ++ t).

(** Flags under which a name can be left out. *)
Definition quiet (E : env) : bool := name_only E || no_return_type E || no_variable_type E.

(** ** Proofs *)
Lemma sl_app l1 t1 l2 t2 : spelled l1 t1 -> spelled l2 t2 -> spelled (l1 ++ l2) (t1 ++ t2).
Proof.
  intros H1 H2. induction H1; cbn [app]; rewrite <- ?app_assoc; [exact H2|..]; constructor; assumption.
Qed.
Lemma sl_dec n : spelled [] (dec_N n). Proof. rewrite <- (app_nil_r (dec_N n)). apply sl_number, sl_end. Qed.
Lemma sl_app0 a b : spelled [] a -> spelled [] b -> spelled [] (a ++ b).
Proof. intros H1 H2. exact (sl_app [] a [] b H1 H2). Qed.
Lemma sl_opt b a : spelled [] a -> spelled [] (opt b a).
Proof. intros H. destruct b; [exact H|constructor]. Qed.

(* constants, by computation *)
Lemma str_eqb_eq x : forall y, str_eqb x y = true -> x = y.
Proof.
  induction x as [|a x IH]; destruct y as [|b y]; cbn; try discriminate; [reflexivity|]. intros H. apply andb_true_iff in H. destruct H as [H1 H2].
  apply N.eqb_eq in H1. rewrite (IH _ H2). congruence.
Qed.
Fixpoint tok (fuel : nat) (t : str) : bool :=
  match fuel, t with
  | _, [] => true
  | O, _ => false
  | S fuel, _ => existsb (fun w => if str_eqb w (firstn (length w) t) then tok fuel (skipn (length w) t) else false) vocabulary
  end.
Lemma tok_ok : forall fuel t, tok fuel t = true -> spelled [] t.
Proof.
  induction fuel as [|fuel IH]; intros [|c t] H; try constructor; try discriminate.
  cbn [tok] in H. apply existsb_exists in H. destruct H as (w & Hw & Ht).
  destruct (str_eqb w (firstn (length w) (c :: t))) eqn:H; [|discriminate]. apply str_eqb_eq in H. rewrite <- (firstn_skipn (length w) (c :: t)), <- H.
  constructor; [exact Hw|]. apply IH. exact Ht.
Qed.
Ltac word := apply (tok_ok 20); vm_compute; reflexivity.

Lemma sl_name1 x : spelled [x] x. Proof. rewrite <- (app_nil_r x) at 2. apply sl_name, sl_end. Qed.
Lemma sl_dec_Z z : spelled [] (dec_Z z).
Proof. destruct z; cbn [dec_Z]; try apply sl_dec. change (spelled [] (L "-" ++ dec_N (Npos p))). apply sl_app0; [word|apply sl_dec]. Qed.
Lemma sl_join0 sep l : spelled [] sep -> Forall (spelled []) l -> spelled [] (join sep l).
Proof.
  intros Hs H. induction H as [|x l Hx Hl IH]; [constructor|]. destruct l as [|y l]; [exact Hx|].
  change (join sep (x :: y :: l)) with (x ++ sep ++ join sep (y :: l)). repeat apply sl_app0; assumption.
Qed.
Lemma sl_concat0 l : Forall (spelled []) l -> spelled [] (concat l).
Proof. induction 1; [constructor|]. apply sl_app0; assumption. Qed.
Lemma sl_prim k : spelled [] (prim_text k). Proof. destruct k; word. Qed.
Lemma sl_tag k : spelled [] (tag_text k). Proof. destruct k; word. Qed.
Lemma sl_pointer k : spelled [] (pointer_text k). Proof. destruct k; word. Qed.
Lemma sl_access k : spelled [] (access_text k). Proof. destruct k; word. Qed.
Lemma sl_adjustment a : spelled [] (adjustment_text a).
Proof.
  destruct a; cbn [adjustment_text]; try apply sl_end; repeat (apply sl_app0); first [apply sl_dec|apply sl_dec_Z|word].
Qed.

Section Types.
  Variable E : env.
  Lemma sl_kw w : spelled [] w -> spelled [] (kw E w).
  Proof. intros H. unfold kw. apply sl_app0; [apply sl_opt; word|exact H]. Qed.
  Ltac sl := lazymatch goal with
    | |- spelled _ [] => apply sl_end
    | |- spelled _ (opt _ _) => apply sl_opt; sl
    | |- spelled _ (kw _ _) => apply sl_kw; sl
    | |- spelled _ (_ ++ _) => apply sl_app0; sl
    | |- spelled _ (L _) => word
    | |- _ => idtac
    end.
  Lemma sl_cc c : spelled [] (cc_text E c).
  Proof. destruct c; cbn [cc_text]; sl. Qed.
  Lemma sl_qual_words q : Forall (spelled []) (qual_words E q).
  Proof.
    unfold qual_words. repeat (apply Forall_app; split). all: destruct (contains q _); try apply Forall_nil; apply Forall_cons; try apply Forall_nil; sl.
  Qed.
  Lemma sl_quals_after q : spelled [] (quals_after E q).
  Proof.
    unfold quals_after. apply sl_concat0. pose proof (sl_qual_words q) as H. induction H as [|w l H Hl IH]; cbn [map]; constructor; [|exact IH].
    apply sl_app0; [word|exact H].
  Qed.
  Lemma sl_quals_alone q : spelled [] (quals_alone E q).
  Proof. unfold quals_alone. apply sl_join0; [word|apply sl_qual_words]. Qed.
  Lemma sl_fn_tail q ne rq : spelled [] (fn_tail E q ne rq).
  Proof.
    unfold fn_tail. cbv zeta. sl. destruct rq as [[|]|]; word.
  Qed.
  Lemma sl_dims ds : spelled [] (join (L "][") (map dim_text ds)).
  Proof.
    apply sl_join0; [word|]. induction ds as [|d ds IH]; cbn [map]; constructor; [|exact IH]. unfold dim_text. destruct (d =? 0)%N; [apply sl_end|apply sl_dec].
  Qed.
  Lemma sl_member a b c : spelled [] (show_member_type E a b c).
  Proof. unfold show_member_type. sl. Qed.
  Lemma sl_show_access a : spelled [] (show_access E a).
  Proof. unfold show_access. apply sl_opt. destruct a; [apply sl_access|apply sl_end]. Qed.
  Lemma sl_untyped a : spelled [] (untyped_pre E a).
  Proof. destruct a as [| | | |[c|]]; cbn [untyped_pre]; try apply sl_end. apply sl_opt, sl_cc. Qed.

  (** The names of the list, but for those hidden by a flag. *)
  Definition told (l : list str) (t : str) : Prop :=
    exists a h, Permutation l (a ++ h) /\ spelled a t /\ (quiet E = false -> h = []).
  Lemma to_fix t : spelled [] t -> told [] t.
  Proof. intros H. exists [], []. split; [reflexivity|]. split; [exact H|reflexivity]. Qed.
  Lemma to_all l t : spelled l t -> told l t.
  Proof. intros H. exists l, []. rewrite app_nil_r. split; [reflexivity|]. split; [exact H|reflexivity]. Qed.
  Lemma to_nil : told [] []. Proof. apply to_fix. constructor. Qed.
  Lemma to_app l1 t1 l2 t2 : told l1 t1 -> told l2 t2 -> told (l1 ++ l2) (t1 ++ t2).
  Proof.
    intros (a & h & P1 & H1 & N1) (b & k & P2 & H2 & N2). exists (a ++ b), (h ++ k). split; [|split].
    - rewrite P1, P2, <- !app_assoc. apply Permutation_app_head. rewrite !app_assoc. apply Permutation_app_tail, Permutation_app_comm.
    - apply sl_app; assumption.
    - intros H. rewrite N1, N2 by exact H. reflexivity.
  Qed.
  Lemma to_behind l a t : spelled [] a -> told l t -> told l (a ++ t).
  Proof. intros Ha H. exact (to_app [] a l t (to_fix a Ha) H). Qed.
  Lemma to_before l t a : spelled [] a -> told l t -> told l (t ++ a).
  Proof. intros Ha H. rewrite <- (app_nil_r l). apply to_app; [exact H|apply to_fix; exact Ha]. Qed.
  Lemma to_perm l l' t : Permutation l l' -> told l t -> told l' t.
  Proof. intros P (a & h & P1 & H). exists a, h. split; [rewrite <- P; exact P1|exact H]. Qed.
  Lemma to_hidden l : quiet E = true -> told l [].
  Proof. intros H. exists [], l. split; [reflexivity|]. split; [constructor|]. rewrite H. discriminate. Qed.
  Lemma to_opt l b t : told l t -> (b = false -> l = [] \/ quiet E = true) -> told l (opt b t).
  Proof. intros H Hb. destruct b; [exact H|]. destruct (Hb eq_refl) as [-> | Hq]; [apply to_nil|apply to_hidden; exact Hq]. Qed.
  Lemma to_join l : forall ts, Forall2 told l ts -> told (concat l) (join (L ", ") ts).
  Proof.
    induction 1 as [|a t l ts H Hs IH]; [apply to_nil|]. cbn [concat]. destruct Hs as [|b u l ts H' Hs].
    - cbn [concat join]. rewrite app_nil_r. exact H.
    - change (join (L ", ") (t :: u :: ts)) with (t ++ L ", " ++ join (L ", ") (u :: ts)). apply to_app; [exact H|]. apply to_behind; [word|]. exact IH.
  Qed.
  Lemma sl_names n : spelled n (qualified n).
  Proof.
    unfold qualified. induction n as [|x n IH]; [constructor|]. destruct n as [|y n]; [apply sl_name1|].
    change (join (L "::") (x :: y :: n)) with (x ++ L "::" ++ join (L "::") (y :: n)). apply sl_name.
    apply sl_word; [vm_compute; tauto|]. exact IH.
  Qed.
  Lemma to_names n : told n (qualified n). Proof. apply to_all, sl_names. Qed.
  Lemma to_sp l x : told l x -> told l (sp E x).
  Proof. intros H. unfold sp. apply to_before; [apply sl_opt; word|exact H]. Qed.

  (** The names of a type, some in front of the declared name and some behind it. *)
  Definition around (l : list str) (s t : str) : Prop := exists a b, Permutation l (a ++ b) /\ told a s /\ told b t.
  Lemma around_all l s t : around l s t -> told l (s ++ t).
  Proof. intros (a & b & P & H1 & H2). eapply to_perm; [symmetry; exact P|]. apply to_app; assumption. Qed.
  Lemma around_nil : around [] [] [].
  Proof. exists [], []. split; [reflexivity|]. split; apply to_nil. Qed.
  Lemma around_hidden l : quiet E = true -> around l [] [].
  Proof. intros H. exists l, []. rewrite app_nil_r. split; [reflexivity|]. split; [apply to_hidden; exact H|apply to_nil]. Qed.
  Lemma around_pre l s : told l s -> around l s [].
  Proof. intros H. exists l, []. rewrite app_nil_r. split; [reflexivity|]. split; [exact H|apply to_nil]. Qed.

  Definition Q (t : ty) : Prop := around (names_of true t) (pre E t) (post E t).
  Definition P (t : ty) : Prop := Q t /\
    match t with
    | TFun _ _ _ r ps _ _ => match r with Some y => Q y | None => True end /\ match ps with Some l => Forall Q l | None => True end
    | _ => True
    end.

  Lemma to_params ps v : match ps with Some l => Forall Q l | None => True end ->
    told (match ps with Some l => concat (map (names_of true) l) | None => [] end)
      (params_text (match ps with Some l => Some (map (fun t => pre E t ++ post E t) l) | None => None end) v).
  Proof.
    intros H. unfold params_text. cbv zeta. apply to_behind; [word|]. apply to_before.
    { apply sl_app0; [|word]. apply sl_opt. apply sl_app0; [|word]. destruct (rev _); [apply sl_end|]. apply sl_opt. word. }
    destruct ps as [l|]; [|apply to_fix; word].
    apply to_join. induction H as [|t l H Hl IH]; cbn [map]; constructor; [apply around_all; exact H|exact IH].
  Qed.
  (* [b]: the return type is printed; [b']: the parameters are *)
  Lemma around_fun r ps v (b b' : bool) (C Y Z : str) :
    match r with Some y => Q y | None => True end -> match ps with Some l => Forall Q l | None => True end ->
    (b = false -> quiet E = true) -> (b' = false -> quiet E = true) -> spelled [] C -> spelled [] Y -> spelled [] Z ->
    around (match r with Some y => names_of true y | None => [] end ++
            match ps with Some l => concat (map (names_of true) l) | None => [] end)
      (match r with Some y => opt b (pre E y ++ L " ") | None => [] end ++ C)
      (Y ++ opt b' (params_text (match ps with Some l => Some (map (fun t => pre E t ++ post E t) l) | None => None end) v) ++ Z ++
       match r with Some y => opt b (post E y) | None => [] end).
  Proof.
    intros Hr Hps Hb Hb' HC HY HZ. pose proof (to_params ps v Hps) as Hp. revert Hp. generalize (match ps with Some l => concat (map (names_of true) l) | None => [] end). intros pn Hp.
    assert (Hq : around (match r with Some y => names_of true y | None => [] end)
              (match r with Some y => opt b (pre E y ++ L " ") | None => [] end) (match r with Some y => opt b (post E y) | None => [] end)).
    { destruct r as [y|]; [|apply around_nil]. destruct b; [|apply around_hidden, Hb; reflexivity]. cbn [opt]. destruct Hr as (a & c & H1 & H2 & H3).
      exists a, c. split; [exact H1|]. split; [apply to_before; [word|exact H2]|exact H3]. }
    destruct Hq as (a & c & H1 & H2 & H3). exists a, (pn ++ c). split; [|split].
    - rewrite H1. rewrite <- !app_assoc. apply Permutation_app_head. apply Permutation_app_comm.
    - apply to_before; assumption.
    - apply to_behind; [exact HY|]. apply to_app; [apply to_opt; [exact Hp|intros ->; right; apply Hb'; reflexivity]|]. apply to_behind; assumption.
  Qed.
  Lemma loud_no : quiet E = false -> name_only E = false /\ no_return_type E = false /\ no_variable_type E = false.
  Proof. unfold quiet. intros H. apply orb_false_elim in H. destruct H as [H ?]. apply orb_false_elim in H. tauto. Qed.
  Lemma hides_ret : negb (no_return_type E) = false -> quiet E = true.
  Proof. unfold quiet. destruct (no_return_type E); [rewrite orb_true_r; reflexivity|discriminate]. Qed.
  Lemma hides_name : negb (name_only E) = false -> quiet E = true.
  Proof. unfold quiet. destruct (name_only E); [reflexivity|discriminate]. Qed.
  Lemma hides_both : negb (no_return_type E) && negb (name_only E) = false -> quiet E = true.
  Proof. intros H. apply andb_false_iff in H. destruct H; [apply hides_ret|apply hides_name]; assumption. Qed.

  Lemma P_holds t : P t.
  Proof.
    induction t as [q k|q k n|q a cls p IH|q ds el IH|q cc rq r ps v ne IHr IHp|q x] using ty_ind'; (split; [|try exact I]); unfold Q; cbn [names_of].
    - apply around_pre, to_fix. cbn [pre]. apply sl_app0; [apply sl_prim|apply sl_quals_after].
    - apply around_pre. cbn [pre]. apply to_behind; [apply sl_opt, sl_app0; [apply sl_tag|word]|]. apply to_before; [apply sl_quals_after|apply to_names].
    - destruct IH as [Hq Hf]. cbn [pre post].
      assert (Hc : told (match cls with Some n => n | None => [] end)
        (match cls with Some n => qualified n ++ L "::" | None => [] end ++ pointer_text a ++ quals_alone E q)).
      { apply to_before; [apply sl_app0; [apply sl_pointer|apply sl_quals_alone]|]. destruct cls as [n|]; [apply to_before; [word|apply to_names]|apply to_nil]. }
      assert (Hg : forall s t, around (names_of true p) s t -> forall X Y, spelled [] X -> spelled [] Y ->
        around (match cls with Some n => n | None => [] end ++ names_of true p)
          (sp E s ++ X ++ Y ++ match cls with Some n => qualified n ++ L "::" | None => [] end ++ pointer_text a ++ quals_alone E q) t).
      { intros s t (x & y & H1 & H2 & H3) X Y HX HY. exists (x ++ match cls with Some n => n | None => [] end), y. split; [|split; [|exact H3]].
        - rewrite H1, !app_assoc. apply Permutation_app_tail. apply Permutation_app_comm.
        - apply to_app; [apply to_sp; exact H2|]. apply to_behind; [exact HX|]. apply to_behind; [exact HY|]. apply Hc. }
      assert (HX : spelled [] (opt (negb (no_ms_keywords E) && contains q Q_Unaligned) (kw E (L "unaligned") ++ L " "))).
      { apply sl_opt, sl_app0; [apply sl_kw; word|word]. }
      destruct p as [q' k'|q' k' n'|q' a' cls' p'|q' ds' el'|q' cc' rq' r' ps' v' ne'|q' x']; try (apply Hg; [exact Hq|exact HX|apply sl_end]).
      + apply Hg; [|exact HX|word]. destruct Hq as (x & y & H1 & H2 & H3). exists x, y. split; [exact H1|]. split; [exact H2|apply to_behind; [word|exact H3]].
      + apply Hg; [|exact HX|].
        2:{ apply sl_app0; [word|]. destruct cc'; [|apply sl_end]. apply sl_opt, sl_app0; [apply sl_cc|word]. }
        cbn [names_of]. destruct Hf as [Hr Hp].
        pose proof (to_params ps' v' Hp) as Hpt.
        assert (Ha : around (match r' with Some y => names_of true y | None => [] end)
            (match r' with Some y => opt (negb (no_return_type E)) (pre E y ++ L " ") | None => [] end)
            (match r' with Some y => opt (negb (no_return_type E) && negb (name_only E)) (post E y) | None => [] end)).
        { destruct r' as [y|]; [|apply around_nil]. destruct Hr as (c & d & H1 & H2 & H3). exists c, d. split; [exact H1|]. split.
          - apply to_opt; [apply to_before; [word|exact H2]|]. intros H. right. apply hides_ret. exact H.
          - apply to_opt; [exact H3|]. intros H. right. apply hides_both. exact H. }
        destruct Ha as (c & d & H1 & H2 & H3). eexists c, (_ ++ d). split; [|split; [exact H2|]].
        2:{ apply to_behind; [word|]. apply to_app; [exact Hpt|]. apply to_behind; [apply sl_fn_tail|exact H3]. }
        rewrite H1, <- !app_assoc. apply Permutation_app_head, Permutation_app_comm.
    - destruct IH as [(x & y & H1 & H2 & H3) _]. exists x, y. split; [exact H1|]. cbn [pre post]. split; [apply to_before; [apply sl_quals_after|exact H2]|].
      apply to_behind; [word|]. apply to_behind; [apply sl_dims|]. apply to_behind; [word|exact H3].
    - cbn [pre post].
      apply (around_fun r ps v _ _ _ [] (fn_tail E q ne rq)).
      + destruct r as [y|]; [exact (proj1 IHr)|exact I].
      + destruct ps as [l|]; [|exact I]. eapply Forall_impl; [|exact IHp]. intros z Hz. exact (proj1 Hz).
      + apply hides_both.
      + apply hides_name.
      + destruct cc; [apply sl_opt, sl_cc|apply sl_end].
      + apply sl_end.
      + apply sl_fn_tail.
    - split; [destruct r as [y|]; [exact (proj1 IHr)|exact I]|]. destruct ps as [l|]; [|exact I]. eapply Forall_impl; [|exact IHp]. intros z Hz. exact (proj1 Hz).
    - apply around_pre. cbn [pre]. apply to_all, sl_name1.
  Qed.
  Lemma type_around t : around (names_of true t) (pre E t) (post E t).
  Proof. exact (proj1 (P_holds t)). Qed.
  Lemma type_told t : told (names_of true t) (show E t).
  Proof. apply around_all, type_around. Qed.
  Lemma variable_told a t name l : told l name -> told (l ++ names_of true t) (show_variable E a t name).
  Proof.
    intros Hl. unfold show_variable. apply to_behind; [apply sl_show_access|]. apply to_behind; [apply sl_member|].
    destruct (negb (no_variable_type E) && negb (name_only E)) eqn:Hb.
    - destruct (type_around t) as (x & y & H1 & H2 & H3). apply (to_perm (x ++ l ++ y)).
      + rewrite H1, !app_assoc. apply Permutation_app_tail, Permutation_app_comm.
      + apply to_app; [apply to_sp; exact H2|]. apply to_app; assumption.
    - rewrite <- (app_nil_r name). apply to_app; [exact Hl|]. apply to_hidden. unfold quiet. revert Hb. destruct (name_only E), (no_variable_type E), (no_return_type E); intros; try reflexivity; discriminate.
  Qed.
  Lemma function_told c a sig name l : told l name ->
    told (l ++ names_in true (match sig with Some t => [t] | None => [] end)) (show_function E c a sig name).
  Proof.
    intros Hl. unfold show_function.
    assert (Ha : around (names_in true (match sig with Some t => [t] | None => [] end))
      (match sig with Some t => pre E t | None => untyped_pre E a end) (match sig with Some t => post E t | None => [] end)).
    { destruct sig as [t|]; unfold names_in; cbn [map concat]; [rewrite app_nil_r; apply type_around|apply around_pre, to_fix, sl_untyped]. }
    destruct Ha as (x & y & H1 & H2 & H3). apply (to_perm (x ++ l ++ y)).
    - rewrite H1, !app_assoc. apply Permutation_app_tail, Permutation_app_comm.
    - apply to_app; [apply to_sp|apply to_app; [exact Hl|apply to_behind; [apply sl_adjustment|exact H3]]].
      apply to_behind; [apply sl_opt; word|]. apply to_behind; [apply sl_show_access|]. apply to_behind; [apply sl_member|]. exact H2.
  Qed.
  Lemma to_dynamic l d v x : told l x -> told l (dynamic_text d v x).
  Proof.
    intros H. unfold dynamic_text. apply to_behind; [destruct d; word|]. apply to_behind; [destruct v; word|]. apply to_before; [word|exact H].
  Qed.
  Lemma table_told q ss nm n : told (ss ++ [nm] ++ n) (show_table E q (qualified (ss ++ [nm])) (Some n)).
  Proof.
    unfold show_table. apply to_behind.
    { apply sl_opt. unfold quals_before. apply sl_app0; [apply sl_quals_alone|apply sl_opt; word]. }
    rewrite app_assoc. apply to_app; [apply to_names|]. apply to_behind; [word|]. apply to_before; [word|apply to_names].
  Qed.
End Types.

Lemma told_env E E' l t : quiet E = quiet E' -> told E l t -> told E' l t.
Proof. unfold told. intros ->. exact (fun H => H). Qed.

(** Whatever the flags, the answer consists of names of the declaration, none more often than
    it is written, and of words and numbers; unless a flag hides part of it all names are there. *)
Theorem no_words_are_invented : forall (E : env) (s out : str) (path : list str) (ys : list ty),
  rust_str s -> declaration (code_limits E) s path ys -> demangle E s = Ok out ->
  exists printed hidden, Permutation (path ++ names_in true ys) (printed ++ hidden) /\ spelled printed out /\
    (quiet E = false -> hidden = []).
Proof.
  intros E s out path ys Hs Hd Ho. change (told E (path ++ names_in true ys) out). apply (told_env (code_limits E)); [reflexivity|]. destruct Hd as
    [n i G1 c ss G2 v a y G3 x rest H1 H2 H3 H4|n i G1 c ss G2 f k a sig G3 x rest H1 H2 H3 H4|k nm c ss G1 far m qc qv t n G2 rest H1 H2 H3 H4
    |d n i G1 c ss G2 f k a sig G3 x rest H1 H2 H3 H4 H5|d known n i G1 c ss G2 v acc y G3 x f k a sig G4 rest H1 H2 H3 H4 H5 H6|t y G' H|t y G' H].
  - rewrite (symbol_out E _ _ _ _ _ _ (sy_variable _ _ _ _ _ _ _ _ _ _ _ _ _ H1 H2 H3 H4) Hs Ho).
    unfold names_in. cbn [map concat]. rewrite app_nil_r. apply variable_told, to_names.
  - rewrite (symbol_out E _ _ _ _ _ _ (sy_function _ _ _ _ _ _ _ _ _ _ _ _ _ _ H1 H2 H3 H4) Hs Ho). apply function_told, to_names.
  - rewrite (symbol_out E _ _ _ _ _ _ (sy_table_for _ _ _ _ _ _ _ _ m qc qv _ _ _ H1 H2 H3 H4) Hs Ho).
    unfold names_in. cbn [map concat]. rewrite app_nil_r. apply table_told.
  - rewrite (symbol_out E _ _ _ _ _ _ (sy_dynamic _ _ d _ _ _ _ _ _ _ _ _ _ _ _ H1 H2 H3 H4 H5) Hs Ho). apply function_told, to_dynamic, to_names.
  - rewrite (symbol_out E _ _ _ _ _ _ (sy_dynamic_variable _ _ d known _ _ _ _ _ _ _ _ _ _ _ _ _ _ _ _ H1 H2 H3 H4 H5 H6) Hs Ho).
    change (names_in true (y :: match sig with Some t => [t] | None => [] end)) with (names_of true y ++ names_in true (match sig with Some t => [t] | None => [] end)).
    rewrite app_assoc. apply function_told, to_dynamic. apply variable_told, to_names.
  - pose proof (typeinfo_type E t y G' H Hs) as Hr. rewrite Ho in Hr. destruct Hr as [Hr|[_ Hr]]; [|discriminate Hr]. destruct (outcome_ok _ _ (eq_sym Hr)) as [-> _].
    unfold names_in. cbn [map concat app]. rewrite app_nil_r. change (told (code_limits E) (names_of true y) (show_type_name (code_limits E) y)). unfold show_type_name.
    destruct (name_only (code_limits E)); [apply type_told|]. apply to_before; [word|]. apply to_sp, type_told.
  - pose proof (type_descriptor E t y G' H Hs) as Hr. rewrite Ho in Hr. destruct Hr as [Hr|[_ Hr]]; [|discriminate Hr]. destruct (outcome_ok _ _ (eq_sym Hr)) as [-> _].
    unfold names_in. cbn [map concat app]. rewrite app_nil_r.
    apply (variable_told (code_limits E) None y _ []). apply to_fix. word.
Qed.

Lemma spelled_count c : (forall w, In w vocabulary -> ~ In c w) -> is_digit c = false ->
  forall l t, spelled l t -> count_occ N.eq_dec t c = count_occ N.eq_dec (concat l) c.
Proof.
  intros Hv Hn l t H. induction H as [|w l t Hw H IH|n l t H IH|x l t H IH]; cbn [concat]; rewrite ?count_occ_app; [reflexivity|..|congruence].
  - rewrite IH. replace (count_occ N.eq_dec w c) with 0; [reflexivity|]. symmetry. apply count_occ_not_In. intros Hi.
    exact (Hv w Hw Hi).
  - rewrite IH. replace (count_occ N.eq_dec (dec_N n) c) with 0; [reflexivity|]. symmetry. apply count_occ_not_In.
    intros Hi. pose proof (dec_N_digits n) as Hd. rewrite Forall_forall in Hd. rewrite (Hd _ Hi) in Hn. discriminate.
Qed.
Lemma perm_count c : forall a b : list str, Permutation a b -> count_occ N.eq_dec (concat a) c = count_occ N.eq_dec (concat b) c.
Proof. induction 1; cbn [concat]; rewrite ?count_occ_app; lia. Qed.
(** Counted character by character: one that is no digit and occurs in no word of the list is
    in the answer exactly as often as in the names of the declaration. *)
Theorem characters_come_from_names : forall (E : env) (s out : str) (path : list str) (ys : list ty) (c : N),
  rust_str s -> declaration (code_limits E) s path ys -> demangle E s = Ok out -> is_digit c = false ->
  (forall w, In w vocabulary -> ~ In c w) ->
  let written := count_occ N.eq_dec (concat (path ++ names_in true ys)) c in
  count_occ N.eq_dec out c <= written /\ (quiet E = false -> count_occ N.eq_dec out c = written).
Proof.
  intros E s out path ys c Hs Hd Ho Hc Hv. cbv zeta. destruct (no_words_are_invented E s out path ys Hs Hd Ho) as (l & h & P & H & Hh).
  rewrite (perm_count c _ _ P), concat_app, count_occ_app. rewrite (spelled_count c) with (l := l); [|..|exact H]; [|exact Hv|exact Hc].
  split; [lia|]. intros Hq. rewrite (Hh Hq). cbn. lia.
Qed.

(** The hypotheses are met by the sample of [AllNames]; all five names are printed. *)
Example sample_spelled : exists l, Permutation [L "ns"; L "p"; L "S"; L "A"; L "A"] l /\
  spelled l (L "struct S (__cdecl *ns::p)(class A, class A)").
Proof.
  destruct (sample_declared 0) as (ys & Hd & Hn).
  destruct (no_words_are_invented (env_of 0) sample_text _ _ ys ltac:(repeat constructor) Hd sample_demangled) as (l & h & P & H & Hh).
  rewrite Hn in P. rewrite (Hh eq_refl), app_nil_r in P. exists l. split; [exact P|exact H].
Qed.
(** Without return types the struct is hidden. *)
Example sample_spelled_hidden : exists l h, Permutation [L "ns"; L "p"; L "S"; L "A"; L "A"] (l ++ h) /\
  spelled l (L "(__cdecl *ns::p)(class A, class A)").
Proof.
  destruct (sample_declared 16) as (ys & Hd & Hn).
  destruct (no_words_are_invented (env_of 16) sample_text _ _ ys ltac:(repeat constructor) Hd sample_hidden) as (l & h & P & H & Hh).
  rewrite Hn in P. exists l, h. split; [exact P|exact H].
Qed.
(** The letter [A] is such a character, so an answer with a third class [A] would not do. *)
Example no_third_class : forall l, Permutation [L "ns"; L "p"; L "S"; L "A"; L "A"] l ->
  ~ spelled l (L "struct S (__cdecl *ns::p)(class A, class A, class A)").
Proof.
  intros l P H. apply (spelled_count (ch "A")) in H; [|intros w Hw Hi|reflexivity].
  2:{ assert (Hb : forallb (fun w => negb (existsb (N.eqb (ch "A")) w)) vocabulary = true) by (vm_compute; reflexivity).
      rewrite forallb_forall in Hb. specialize (Hb w Hw). apply negb_true_iff in Hb. rewrite <- not_true_iff_false in Hb. apply Hb.
      apply existsb_exists. exists (ch "A"). split; [exact Hi|apply N.eqb_refl]. }
  rewrite <- (perm_count (ch "A") _ _ P) in H.
  vm_compute in H. discriminate.
Qed.
Print Assumptions no_words_are_invented.
Print Assumptions characters_come_from_names.
