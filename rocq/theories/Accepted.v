(** What the demangler accepts, exactly (C33). *)
From Verif Require Import Parser Api Utf8 Show Den Emit Grammar Lex Step Number Pend ReadAt Round RoundNames RoundTypes RoundBody RoundArgs RoundSyms RoundSpecials Safety Trip Md5 StrLit Literal Sound SoundNames SoundTypes SoundArgs SoundSyms Specials.

(** ** Specification *)
(** [reading E s x]: the text [s] is a decorated name with the C++ text [x].  It is a symbol of
    the grammar or a string literal, with anything after it; an MD5 name, with anything after it
    but the locator suffix, which would belong to it; or one of the forms after which nothing may
    follow: a type-info name, a type descriptor, and the guard of a local static without index.
    The limits in [E] only matter for names that are rendered while reading. *)
Inductive reading (E : env) : str -> str -> Prop :=
| de_symbol t x id G' rest : symbol E empty_tab t x id G' -> reading E (t ++ rest) x
| de_md5 h rest : md5_key h -> no_locator rest -> reading E (md5_text h ++ rest) (md5_text h)
| de_literal t x rest : literal (e_out E) t x -> reading E (t ++ rest) x
| de_typeinfo t y G' : rtype E empty_tab t y G' -> reading E (L "." ++ t) (show_type_name E y)
| de_descriptor t y G' : rtype E empty_tab t y G' ->
    reading E (L "??_R0" ++ t ++ L "@8") (show_variable E None y (L "`RTTI Type Descriptor'"))
| de_guard (thread : bool) c ss G' (visible : bool) : chain E empty_tab c ss G' ->
    reading E ((if thread then L "??__J" else L "??_B") ++ c ++ (if visible then L "5" else L "4IA"))
      (qualified (ss ++ [if thread then L "`local static thread guard'" else L "`local static guard'"])).
(** With the limits of the code. *)
Definition decorated (E : env) : str -> str -> Prop := reading (code_limits E).
(** The text is below the output limit. *)
Definition printable_size (x : str) : Prop := (N.of_nat (length (utf8 x)) < 2 ^ 20)%N.

(** ** Proofs *)
Lemma outcome_ok x y : outcome y = Ok x -> x = y /\ printable_size x.
Proof. unfold outcome, printable_size. destruct (_ <? _)%N eqn:H; [|discriminate]. intros [= ->]. apply N.ltb_lt in H. auto. Qed.
Lemma outcome_size x : printable_size x -> outcome x = Ok x.
Proof. unfold outcome, printable_size. intros H. apply N.ltb_lt in H. rewrite H. reflexivity. Qed.

Lemma wide_printable l len : Forall printable (wide_text l len).
Proof. unfold wide_text. cbv zeta. destruct (64 <? len)%N; (apply Forall_app; split; [|apply Forall_app; split; [apply printable_text|]]); repeat constructor; cbn; lia. Qed.

(** Every decorated name is accepted with its text. *)
Theorem decorated_accepted : forall (E : env) (s x : str), rust_str s -> decorated E s x ->
  demangle E s = outcome x \/ (1638 < length s /\ demangle E s = Err MaliciousInput).
Proof.
  intros E s x Hs Hd. destruct Hd as [t x id G' rest H|h rest [H1 H2] Hn|t x rest H|t y G' H|t y G' H|thread c ss G' visible H].
  - destruct (symbol_demangles E t x id G' H rest Hs) as [Hr|[Hl Hr]]; [left; exact Hr|right]. rewrite app_length. split; [lia|exact Hr].
  - left. pose proof (md5_passed_through E h rest H1 H2) as H. unfold md5_text, outcome. rewrite <- !app_assoc. rewrite H. unfold md5_name.
    replace (starts_with (L "??_R4@") rest) with false; [rewrite ?app_nil_r; reflexivity|].
    symmetry. apply not_true_is_false. intros Hx. apply starts_with_inv in Hx. destruct Hx as (r & ->). apply (Hn r). reflexivity.
  - left. destruct H as [nt len crc ts l A1 A2 A3 A4 A5 A6|nt len crc ts l A1 A2 A3 A4 A5]; rewrite <- !app_assoc in *.
    + pose proof (narrow_string_literal E nt len crc ts l rest A1 A2 A3 A4 A5) as H. rewrite H. symmetry. apply outcome_size. exact (output_size_bound E _ _ Hs H).
    + rewrite (wide_string_literal E nt len crc ts l rest A1 A2 A3 A4). unfold outcome. rewrite (utf8_ascii (wide_text l len)); [reflexivity|].
      apply printable_ascii, wide_printable.
  - exact (typeinfo_type E t y G' H Hs).
  - exact (type_descriptor E t y G' H Hs).
  - pose proof (guard_at E thread _ _ _ visible H) as H1. unfold guard_text in H1. rewrite app_nil_r in H1. exact (H1 Hs).
Qed.
(** Everything accepted is a decorated name, and its text is the one returned. *)
Theorem accepted_is_decorated : forall (E : env) (s x : str), rust_str s ->
  demangle E s = Ok x -> decorated E s x /\ printable_size x.
Proof.
  intros E s x Hs Hd.
  assert (Hex : exists y, decorated E s y).
  { pose proof (parse_reads (code_limits E) eq_refl (S (length s)) s [] [] [] [] empty_tab (le_S _ _ (le_n _)) Hs (ctx_start _)) as Hp. unfold pw in Hp.
    change (k_parse (knot_of (code_limits E) (S (length s))) (at_ s [] [] [])) with (parse (code_limits E) s) in Hp.
    unfold demangle, demangle_with, demangle_into_with in Hd. destruct (parse (code_limits E) s) as [[h st]| | |]; try discriminate Hd. clear Hd.
    destruct Hp as [(t & [y id] & G' & rest & -> & Hp)|[(h0 & rest & -> & H1 & H2)|[(t & x0 & rest & -> & Ht)|[Hp _]]]]; [exists y; eapply de_symbol; exact Hp|eexists; apply de_md5; assumption|eexists; apply de_literal; exact Ht|].
    remember empty_tab as G0 eqn:HG. destruct Hp as [G t y G' Hp|G t y G' Hp|G thread c ss G1 visible Hp]; subst G.
    - eexists. eapply de_typeinfo. exact Hp.
    - eexists. eapply de_descriptor. exact Hp.
    - eexists. eapply de_guard. exact Hp. }
  destruct Hex as (y & Hy). destruct (decorated_accepted E s y Hs Hy) as [Hr|[_ Hr]]; rewrite Hd in Hr; [|discriminate].
  destruct (outcome_ok x y (eq_sym Hr)) as [-> Hz]. auto.
Qed.
(** For texts of at most 1638 characters the two agree, and every other text is rejected. *)
Theorem accepts_exactly : forall (E : env) (s x : str), rust_str s -> length s <= 1638 ->
  (demangle E s = Ok x <-> decorated E s x /\ printable_size x).
Proof.
  intros E s x Hs Hl. split; [apply accepted_is_decorated; assumption|]. intros [Hd Hz].
  destruct (decorated_accepted E s x Hs Hd) as [Hr|[Hb _]]; [|lia]. rewrite Hr. apply outcome_size. exact Hz.
Qed.
Theorem others_rejected : forall (E : env) (s : str), rust_str s -> (forall x, ~ decorated E s x) -> exists e, demangle E s = Err e.
Proof.
  intros E s Hs Hn. destruct (demangle E s) as [x|e| |] eqn:Hd; [|eauto| |].
  - exfalso. apply (Hn x). eapply accepted_is_decorated; eassumption.
  - exfalso. apply (proj1 (demangle_never_panics E s Hs)). exact Hd.
  - exfalso. apply (proj1 (demangle_terminates E s Hs)). exact Hd.
Qed.
(** A text has one reading. *)
Theorem one_reading : forall (E : env) (s x y : str), rust_str s -> length s <= 1638 -> decorated E s x -> decorated E s y -> printable_size x -> x = y.
Proof.
  intros E s x y Hs Hl Hx Hy Hz. destruct (decorated_accepted E s x Hs Hx) as [Hr|[Hb _]]; [|lia]. destruct (decorated_accepted E s y Hs Hy) as [Hr'|[Hb _]]; [|lia].
  rewrite Hr, (outcome_size x Hz) in Hr'. destruct (outcome_ok x y (eq_sym Hr')) as [H _]. exact H.
Qed.

(** A function with a name in a namespace, a reference back to it, and a template; it is accepted,
    hence decorated, and that is its only reading. *)
Definition accepted_text : str := L "?f@ns@@YAXPEAV?$vec@H@1@@Z".
Example accepted_text_example : rust_str accepted_text /\ length accepted_text <= 1638 /\
  demangle (env_of 0) accepted_text = Ok (L "void __cdecl ns::f(class ns::vec<int> *)").
Proof.
  split; [repeat constructor|]. split; [cbn; lia|vm_compute; reflexivity].
Qed.
Example accepted_text_decorated : decorated (env_of 0) accepted_text (L "void __cdecl ns::f(class ns::vec<int> *)").
Proof. destruct accepted_text_example as (H1 & H2 & H3). apply accepted_is_decorated; assumption. Qed.
(** The same with MD5 names and string literals, inside a symbol and alone. *)
Definition accepted_others : list (string * string) :=
  [("?x@?$t@$E??_C@_01A@a?$AA@$1??@beef@@?1???@0123@@3HA", "int `??@0123@'::`2'::t<""a"", &??@beef@>::x");
   ("??@beef@??_R4@", "??@beef@??_R4@"); ("??@beef@??_R4", "??@beef@"); ("??_C@_01A@a?$AA@", """a""")]%string.
Example accepted_others_decorated : forall s x, In (s, x) accepted_others -> decorated (env_of 0) (L s) (L x).
Proof.
  intros s x H. apply accepted_is_decorated; cbn in H; repeat (destruct H as [H|H]); try contradiction; injection H as <- <-;
    solve [repeat constructor|vm_compute; reflexivity].
Qed.
(** An MD5 name before its locator suffix has no reading of its own. *)
Example locator_belongs : ~ decorated (env_of 0) (L "??@beef@??_R4@") (L "??@beef@").
Proof.
  intros Hd. apply decorated_accepted in Hd; [|repeat constructor]. destruct Hd as [Hd|[Hd _]]; [|cbn in Hd; lia]. vm_compute in Hd. discriminate Hd.
Qed.
(** The text without its last character is not a decorated name, and neither is a type-info name with something after it. *)
Example rejected_example : forall s, In s (map L ["?f@ns@@YAXPEAV?$vec@H@1@@"; ".?AVx@@y"]%string) -> forall x, ~ decorated (env_of 0) s x.
Proof.
  intros s [<-|[<-|[]]] x Hd; (apply decorated_accepted in Hd; [|repeat constructor]); (destruct Hd as [Hd|[Hd _]]; [|cbn in Hd; lia]);
    revert Hd; unfold outcome; (destruct (_ <? _)%N; vm_compute; discriminate).
Qed.
Print Assumptions decorated_accepted.
Print Assumptions accepted_is_decorated.
Print Assumptions accepts_exactly.
Print Assumptions others_rejected.
Print Assumptions one_reading.
