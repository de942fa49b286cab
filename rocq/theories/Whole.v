(** What C51 says of declarations holds for every accepted text but string literals, whose answer
    is their content (C33).  Nothing here models code. *)
From Coq Require Import Permutation.
From Verif Require Import Parser Api Utf8 Lex Safety Number Mangle Trip Round RoundSyms RoundSpecials Literal Specials Accepted AllNames Wording Show Grammar.

(** ** Specification *)
(** The accepted forms that are no [declaration]: their components, the last of which is the
    marker for what they are, and the types written in them. *)
Inductive marker (E : env) : str -> list str -> list ty -> Prop :=
| mk_variable c ss G2 v a y G3 rest : chain E empty_tab c ss G2 -> variable E G2 v a y G3 ->
    marker E ((L "?" ++ L "?_R" ++ c ++ v) ++ rest) (ss ++ [[]]) [y]
| mk_function c ss G2 f k a sig G3 rest : chain E empty_tab c ss G2 -> function E G2 f k a sig G3 ->
    marker E ((L "?" ++ L "?_R" ++ c ++ f) ++ rest) (ss ++ [[]]) (match sig with Some t => [t] | None => [] end)
| mk_table k nm c ss G1 far m qc qv rest : In (k, nm) table_codes -> chain E empty_tab c ss G1 -> In far (L "67") ->
    marker E ((L "??" ++ k ++ c ++ [far; cv_code m qc qv] ++ L "@") ++ rest) (ss ++ [nm]) []
| mk_rtti k nm c ss G1 rest : In (k, nm) rtti_codes -> chain E empty_tab c ss G1 ->
    marker E ((L "??" ++ k ++ c ++ L "8") ++ rest) (ss ++ [nm]) []
| mk_base_descriptor t1 nv t2 vbptr t3 vbt t4 fl c ss G1 rest :
    num_text t1 nv -> signed_number t2 vbptr -> num_text t3 vbt -> num_text t4 fl -> chain E empty_tab c ss G1 ->
    marker E ((L "??_R1" ++ t1 ++ t2 ++ t3 ++ t4 ++ c ++ L "8") ++ rest) (ss ++ [base_descriptor_text nv vbptr vbt fl]) []
| mk_vcall c ss G1 t off l cc rest : chain E empty_tab c ss G1 -> num_text t off -> cc_code l cc ->
    marker E ((L "??_9" ++ c ++ L "$B" ++ t ++ L "A" ++ [l]) ++ rest) (ss ++ [vcall_text E off]) []
| mk_guard_numbered thread c ss G1 (visible : bool) t i rest : chain E empty_tab c ss G1 -> num_text t i ->
    marker E ((guard_code thread ++ c ++ (if visible then L "5" else L "4IA") ++ t) ++ rest) (ss ++ [guard_text thread i]) []
| mk_guard (thread : bool) c ss G1 (visible : bool) : chain E empty_tab c ss G1 ->
    marker E ((if thread then L "??__J" else L "??_B") ++ c ++ (if visible then L "5" else L "4IA"))
      (ss ++ [if thread then L "`local static thread guard'" else L "`local static guard'"]) []
| mk_md5 h rest : md5_key h -> marker E (md5_text h ++ rest) [md5_text h] []
| mk_md5_locator h rest : md5_key h -> marker E ((md5_text h ++ locator) ++ rest) [md5_text h ++ locator] [].

(** ** Proofs *)
Lemma told_fixed E x : told E [x] x. Proof. apply to_all, sl_name1. Qed.

(** Every accepted text is a string literal, a declaration or one of the other forms, and in the
    two latter cases the answer consists of its names, of words and of numbers. *)
Theorem every_answer_is_made_of_names : forall (E : env) (s out : str), rust_str s -> demangle E s = Ok out ->
  (exists t rest, s = t ++ rest /\ literal (e_out (code_limits E)) t out) \/
  exists path ys, (declaration (code_limits E) s path ys \/ marker (code_limits E) s path ys) /\
    exists printed hidden, Permutation (path ++ names_in true ys) (printed ++ hidden) /\ spelled printed out /\
      (quiet E = false -> hidden = []).
Proof.
  intros E s out Hs Ho.
  assert (Hdecl : forall path ys, declaration (code_limits E) s path ys -> exists path ys,
    (declaration (code_limits E) s path ys \/ marker (code_limits E) s path ys) /\
    exists printed hidden, Permutation (path ++ names_in true ys) (printed ++ hidden) /\ spelled printed out /\ (quiet E = false -> hidden = [])).
  { intros path ys H. exists path, ys. split; [left; exact H|]. exact (no_words_are_invented E s out path ys Hs H Ho). }
  assert (Hmark : forall path ys, marker (code_limits E) s path ys -> told (code_limits E) (path ++ names_in true ys) out -> exists path ys,
    (declaration (code_limits E) s path ys \/ marker (code_limits E) s path ys) /\
    exists printed hidden, Permutation (path ++ names_in true ys) (printed ++ hidden) /\ spelled printed out /\ (quiet E = false -> hidden = [])).
  { intros path ys H Ht. exists path, ys. split; [right; exact H|exact Ht]. }
  destruct (accepted_is_decorated E s out Hs Ho) as [Hd _]. unfold decorated in Hd.
  remember (code_limits E) as E' eqn:HE.
  destruct Hd as [t x id G' rest H|h rest H Hn|t x rest H|t y G' H|t y G' H|thread c ss G' visible H].
  - right. remember empty_tab as G0 eqn:HG. destruct H; subst G.
    + eapply Hdecl. eapply dn_variable; eassumption.
    + eapply Hdecl. eapply dn_function; eassumption.
    + eapply Hmark; [eapply mk_variable; eassumption|]. unfold names_in; cbn [map concat]; rewrite app_nil_r. apply variable_told, to_names.
    + eapply Hmark; [eapply mk_function; eassumption|]. apply function_told, to_names.
    + eapply Hmark; [eapply mk_table; eassumption|]. unfold names_in; cbn [map concat]; rewrite app_nil_r.
      unfold show_table. rewrite app_nil_r. apply to_behind; [|apply to_names].
      apply sl_opt. unfold quals_before. apply sl_app0; [apply sl_quals_alone|apply sl_opt; word].
    + eapply Hdecl. eapply dn_table; eassumption.
    + eapply Hmark; [eapply mk_rtti; eassumption|]. unfold names_in; cbn [map concat]; rewrite app_nil_r. apply to_names.
    + eapply Hmark; [eapply mk_base_descriptor; eassumption|]. unfold names_in; cbn [map concat]; rewrite app_nil_r. apply to_names.
    + eapply Hmark; [eapply mk_vcall; eassumption|]. apply (function_told E' _ _ None), to_names.
    + eapply Hmark; [eapply mk_guard_numbered; eassumption|]. unfold names_in; cbn [map concat]; rewrite app_nil_r. apply to_names.
    + eapply Hdecl. eapply dn_initializer; eassumption.
    + eapply Hdecl. eapply dn_initializer_of; eassumption.
    + eapply Hmark; [eapply mk_md5_locator; eassumption|]. apply told_fixed.
  - right. eapply Hmark; [eapply mk_md5; exact H|]. apply told_fixed.
  - left. exists t, rest. split; [reflexivity|]. exact H.
  - right. eapply Hdecl. eapply dn_type; eassumption.
  - right. eapply Hdecl. eapply dn_type_descriptor; eassumption.
  - right. eapply Hmark; [eapply mk_guard; eassumption|]. unfold names_in; cbn [map concat]; rewrite app_nil_r. apply to_names.
Qed.

(** The hypotheses are met, by a declaration and by a table. *)
Example whole_sample : exists path ys, (declaration (code_limits (env_of 0)) sample_text path ys \/ marker (code_limits (env_of 0)) sample_text path ys) /\
  exists l, Permutation (path ++ names_in true ys) l /\ spelled l (L "struct S (__cdecl *ns::p)(class A, class A)").
Proof.
  destruct (every_answer_is_made_of_names (env_of 0) sample_text _ ltac:(repeat constructor) sample_demangled) as [(t & rest & He & Hl)|(p & ys & H & l & h & P & Hsp & Hh)].
  - destruct Hl; discriminate He.
  - exists p, ys. split; [exact H|]. exists l. rewrite (Hh eq_refl), app_nil_r in P. split; assumption.
Qed.
Definition table_text : str := L "??_7S@ns@@6B@".
Example table_demangled : demangle (env_of 0) table_text = Ok (L "const ns::S::`vftable'").
Proof. vm_compute. reflexivity. Qed.
Example table_sample : exists path ys, (declaration (code_limits (env_of 0)) table_text path ys \/ marker (code_limits (env_of 0)) table_text path ys) /\
  exists l, Permutation (path ++ names_in true ys) l /\ spelled l (L "const ns::S::`vftable'").
Proof.
  destruct (every_answer_is_made_of_names (env_of 0) table_text _ ltac:(repeat constructor) table_demangled) as [(t & rest & He & Hl)|(p & ys & H & l & h & P & Hsp & Hh)].
  - destruct Hl; discriminate He.
  - exists p, ys. split; [exact H|]. exists l. rewrite (Hh eq_refl), app_nil_r in P. split; assumption.
Qed.
Print Assumptions every_answer_is_made_of_names.
