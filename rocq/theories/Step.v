(** Exact steps of the parser on an explicit state.  Proof infrastructure. *)
From Verif Require Import Parser Utf8 Lex Number.

Definition at_ (t : str) (sg : store) (f n : list handle) : st := mkSt (ms_new t) sg f n.

Lemma bind_eq {A B} (m : M A) (f : A -> M B) s a s' : m s = Ok (a, s') -> bind m f s = f a s'.
Proof. unfold bind. intros ->. reflexivity. Qed.
Lemma bind_err {A B} (m : M A) (f : A -> M B) s e : m s = Err e -> bind m f s = Err e.
Proof. unfold bind. intros ->. reflexivity. Qed.
Lemma wp_step {A B} okerr (m : M A) (f : A -> M B) Q s a s' :
  m s = Ok (a, s') -> wp okerr (f a) Q s' -> wp okerr (bind m f) Q s.
Proof. unfold wp. intros H. rewrite (bind_eq _ _ _ _ _ H). auto. Qed.

Lemma text_at t sg f n : text (at_ t sg f n) = Ok (t, at_ t sg f n).
Proof. reflexivity. Qed.
Lemma get_at s : get s = Ok (s, s).
Proof. reflexivity. Qed.
Lemma len_at t sg f n : len_chars (at_ t sg f n) = Ok (length t, at_ t sg f n).
Proof. reflexivity. Qed.
Lemma next_at e c t sg f n : next_char e (at_ (c :: t) sg f n) = Ok (c, at_ t sg f n).
Proof. rewrite next_char_eq by reflexivity. reflexivity. Qed.
Lemma next_at_nil e sg f n : next_char e (at_ [] sg f n) = Err e.
Proof. rewrite next_char_eq by reflexivity. reflexivity. Qed.
Definition starts (c : N) (t : str) : bool := match t with x :: _ => (x =? c)%N | [] => false end.
Lemma eat_yes c t sg f n : eat_char c (at_ (c :: t) sg f n) = Ok (true, at_ t sg f n).
Proof. rewrite eat_char_eq by reflexivity. cbn. rewrite N.eqb_refl. reflexivity. Qed.
Lemma eat_no c t sg f n : starts c t = false -> eat_char c (at_ t sg f n) = Ok (false, at_ t sg f n).
Proof.
  intros H. rewrite eat_char_eq by reflexivity. change (tx (at_ t sg f n)) with t.
  destruct t as [|x r]; [reflexivity|]. cbn in H. rewrite H. reflexivity.
Qed.
Lemma strip_app p t : strip_prefix p (p ++ t) = Some t.
Proof. apply strip_prefix_spec. reflexivity. Qed.
Lemma eats_yes p t sg f n : eat_str p (at_ (p ++ t) sg f n) = Ok (true, at_ t sg f n).
Proof. rewrite eat_str_eq by reflexivity. change (tx (at_ (p ++ t) sg f n)) with (p ++ t). rewrite strip_app. reflexivity. Qed.
Lemma eats_no p t sg f n : strip_prefix p t = None -> eat_str p (at_ t sg f n) = Ok (false, at_ t sg f n).
Proof. intros H. rewrite eat_str_eq by reflexivity. change (tx (at_ t sg f n)) with t. rewrite H. reflexivity. Qed.
Lemma expect_yes c e t sg f n : expect_char c e (at_ (c :: t) sg f n) = Ok (tt, at_ t sg f n).
Proof. unfold expect_char. erewrite bind_eq by apply eat_yes. reflexivity. Qed.
Lemma expects_yes p e t sg f n : expect_str p e (at_ (p ++ t) sg f n) = Ok (tt, at_ t sg f n).
Proof. unfold expect_str. erewrite bind_eq by apply eats_yes. reflexivity. Qed.
Lemma eatif_yes g c t sg f n : g c = true -> eat_if g (at_ (c :: t) sg f n) = Ok (Some c, at_ t sg f n).
Proof. intros H. rewrite eat_if_eq by reflexivity. cbn. rewrite H. reflexivity. Qed.
Lemma eatif_no g t sg f n : first_is g t = false -> eat_if g (at_ t sg f n) = Ok (None, at_ t sg f n).
Proof.
  intros H. rewrite eat_if_eq by reflexivity. change (tx (at_ t sg f n)) with t.
  destruct t as [|x r]; [reflexivity|]. cbn in H. rewrite H. reflexivity.
Qed.
Lemma bytes_at a t sg f n : lift (try_consume_n_bytes (str_bytes a)) (at_ (a ++ t) sg f n) = Ok (Some a, at_ t sg f n).
Proof.
  rewrite consume_bytes_eq by reflexivity. change (tx (at_ (a ++ t) sg f n)) with (a ++ t). rewrite split_bytes_app. reflexivity.
Qed.
Lemma intern_at E nd t sg f n : (N.of_nat (length sg + 1) <= e_nodes E)%N ->
  intern E nd (at_ t sg f n) = Ok (length sg, at_ t (sg ++ [nd]) f n).
Proof.
  intros H. unfold intern. change (s_store (at_ t sg f n)) with sg.
  apply N.ltb_ge in H. rewrite H. reflexivity.
Qed.
Lemma wp_intern_at (okerr : error -> Prop) E nd t sg f n (Q : handle -> st -> Prop) : okerr MaliciousInput ->
  Q (length sg) (at_ t (sg ++ [nd]) f n) -> wp okerr (intern E nd) Q (at_ t sg f n).
Proof.
  intros He HQ. unfold wp, intern. change (s_store (at_ t sg f n)) with sg. destruct (_ <? _)%N; [exact He|exact HQ].
Qed.
Lemma number_at t v neg r sg f n : signed_text t v neg ->
  demangle_number (at_ (t ++ r) sg f n) = Ok ((v, neg), at_ r sg f n).
Proof. intros H. eapply demangle_number_eq; [reflexivity|exact H|reflexivity]. Qed.
Lemma unsigned_at t v r sg f n : num_text t v -> demangle_unsigned (at_ (t ++ r) sg f n) = Ok (v, at_ r sg f n).
Proof.
  intros H. unfold demangle_unsigned. erewrite bind_eq; [|apply (number_at t v false); exists t; auto]. reflexivity.
Qed.
