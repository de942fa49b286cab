(** A text has one reading (C35): symbols delimit themselves, and no text of any length has two meanings. *)
From Verif Require Import Parser Api Utf8 Show Literal Den Emit Grammar Lex Step Number Pend ReadAt Round RoundNames RoundTypes RoundBody RoundArgs RoundSyms RoundSpecials Limits Trip NumArr Specials Accepted.

(** ** Proofs *)
Lemma okerr_weak F B B' e : B <= B' -> okerr F B e -> okerr F B' e.
Proof. intros H [-> He]. split; [reflexivity|lia]. Qed.
Lemma wp_run F B (s : str) {A} (m : M A) Q : wp (okerr F B) m Q (at_ s [] [] []) -> (N.of_nat B <= e_nodes F)%N ->
  exists a st, m (at_ s [] [] []) = Ok (a, st) /\ Q a st.
Proof.
  unfold wp. intros H HB. destruct (m (at_ s [] [] [])) as [[a st]|e| |]; try contradiction; [eauto|]. destruct H as [_ H]. lia.
Qed.
(** Every reading is one of the parser, under any limits. *)
Lemma reading_reads F s x : reading F s x -> reads_as F s x.
Proof.
  intros H. destruct H as [t x id G' rest H|h rest H1 Hn|t x rest H|t y G' H|t y G' H|thread c ss G' visible H].
  - unfold reads_as. eapply wp_weaken; [intros e; apply okerr_weak; rewrite app_length; apply Nat.mul_le_mono_l; apply Nat.le_add_r|].
    eapply wp_mono; [apply (parse_grammar F t x id G' rest H)|]. intros h s0 (w & sg & f & n & -> & _ & _ & _ & C & D & _). exists w. split; [apply C|exact D].
  - unfold reads_as. destruct (md5_open F (2 * length (md5_text h ++ rest)) h rest empty_tab H1 Hn) as [_ R].
    eapply wp_mono; [apply (R _ [] [] [] []); [rewrite app_length; lia|apply ctx_start|rewrite app_length; cbn [length]; lia]|].
    intros a s0 (w & sg & f & n & -> & _ & _ & _ & C & D & _). exists w. split; [apply C|exact D].
  - unfold reads_as. destruct (literal_at F (2 * length (t ++ rest)) rest empty_tab t x H) as [_ R].
    eapply wp_mono; [apply (R _ [] [] [] []); [rewrite app_length; lia|apply ctx_start|rewrite app_length; cbn [length]; lia]|].
    intros a s0 (w & sg & f & n & -> & _ & _ & _ & C & D & _). exists w. split; [apply C|exact D].
  - eapply typeinfo_reads. exact H.
  - eapply descriptor_reads. exact H.
  - pose proof (guard_reads F thread c ss G' visible H) as R. destruct thread; cbn [guard_text] in R; rewrite ?app_nil_r in R; exact R.
Qed.
Section Higher.
  Variable E : env.
  Variable k o : N.
  Hypothesis Ho : (e_out E <= o)%N.
  Let F := with_out (with_nodes E k) o.
  Lemma symbol_higher t x id G' : symbol E empty_tab t x id G' -> symbol F empty_tab t x id G'.
  Proof. pose proof (grammar_higher E k o Ho) as H. do 21 apply proj2 in H. apply H. Qed.
  Lemma reading_higher s x : reading E s x -> reading F s x.
  Proof.
    pose proof (grammar_higher E k o Ho) as Hg. fold F in Hg. intros H. destruct H as [t x id G' rest H|h rest H1 Hn|t x rest H|t y G' H|t y G' H|thread c ss G' visible H].
    - eapply de_symbol. apply symbol_higher. exact H.
    - apply de_md5; assumption.
    - apply de_literal. apply literal_higher; assumption.
    - change (show_type_name E y) with (show_type_name F y). eapply de_typeinfo. do 11 apply proj2 in Hg. apply proj1 in Hg. apply Hg. exact H.
    - change (show_variable E None y) with (show_variable F None y). eapply de_descriptor. do 11 apply proj2 in Hg. apply proj1 in Hg. apply Hg. exact H.
    - eapply de_guard. apply proj2, proj1 in Hg. apply Hg. exact H.
  Qed.
End Higher.
Lemma utf8_inj x y : ustr x -> ustr y -> utf8 x = utf8 y -> x = y.
Proof. intros Hx Hy H. pose proof (from_utf8_utf8 x Hx) as H1. rewrite H, (from_utf8_utf8 y Hy) in H1. congruence. Qed.
(** What the printer writes determines the denotation, once it fits. *)
Lemma den_unique F w1 w2 sg h x y : compat w1 sg -> compat w2 sg -> dstr F (cnt w1) w1 KSym h x -> dstr F (cnt w2) w2 KSym h y ->
  (N.of_nat (length (utf8 x)) < e_out F)%N -> (N.of_nat (length (utf8 y)) < e_out F)%N -> x = y.
Proof.
  intros C1 C2 D1 D2 F1 F2.
  destruct (output_den F w1 sg KSym h x (mkBuf [] 0) C1 D1 eq_refl) as [(b1 & O1 & B1 & U1)|(b1 & O1 & B1)]; [|lia].
  destruct (output_den F w2 sg KSym h y (mkBuf [] 0) C2 D2 eq_refl) as [(b2 & O2 & B2 & U2)|(b2 & O2 & B2)]; [|lia].
  rewrite O1 in O2. injection O2 as <-. apply utf8_inj; [exact U1|exact U2|congruence].
Qed.

(** ** Theorems *)
(** A text has at most one meaning, however long it is and however long the meaning. *)
Theorem one_meaning : forall (E : env) (s x y : str), decorated E s x -> decorated E s y -> x = y.
Proof.
  intros E s x y Hx Hy. unfold decorated in *. set (C := code_limits E) in *.
  set (k := N.of_nat (2 * length s)). set (o := (e_out C + N.of_nat (length (utf8 x) + length (utf8 y) + 1))%N).
  assert (Ho : (e_out C <= o)%N) by (unfold o; lia).
  apply (reading_higher C k o Ho), reading_reads in Hx, Hy. set (F := with_out (with_nodes C k) o) in *.
  apply wp_run in Hx; [|reflexivity]. apply wp_run in Hy; [|reflexivity].
  destruct Hx as (a & st & R1 & w1 & C1 & D1). destruct Hy as (b & st' & R2 & w2 & C2 & D2). rewrite R1 in R2. injection R2 as <- <-.
  eapply den_unique; [exact C1|exact C2|exact D1|exact D2| |]; unfold F, o; cbn [e_out with_out]; lia.
Qed.
(** Of two symbols that begin the same text, neither is longer than the other: the end of a symbol
    can be found without knowing what follows. *)
Theorem symbols_delimit_themselves : forall (E : env) (t1 x1 id1 : str) (G1 : tab) (t2 x2 id2 : str) (G2 : tab) (r1 r2 : str),
  symbol E empty_tab t1 x1 id1 G1 -> symbol E empty_tab t2 x2 id2 G2 -> t1 ++ r1 = t2 ++ r2 -> t1 = t2 /\ x1 = x2.
Proof.
  intros E t1 x1 id1 G1 t2 x2 id2 G2 r1 r2 H1 H2 Ht.
  set (k := N.of_nat (2 * length t1 + 2 * length t2)). set (o := (e_out E + N.of_nat (length (utf8 x1) + length (utf8 x2) + 1))%N).
  assert (Ho : (e_out E <= o)%N) by (unfold o; lia).
  apply (symbol_higher E k o Ho) in H1, H2. set (F := with_out (with_nodes E k) o) in *.
  apply (parse_grammar F t1 x1 id1 G1 r1) in H1. apply (parse_grammar F t2 x2 id2 G2 r2) in H2.
  apply wp_run in H1; [|unfold F; cbn [e_nodes with_out with_nodes]; lia]. apply wp_run in H2; [|unfold F; cbn [e_nodes with_out with_nodes]; lia].
  destruct H1 as (a & st & R1 & w1 & sg & f & n & -> & _ & _ & _ & C1 & D1 & _). destruct H2 as (b & st' & R2 & w2 & sg' & f' & n' & -> & _ & _ & _ & C2 & D2 & _).
  rewrite <- Ht, R1 in R2. assert (Hs : at_ r1 sg f n = at_ r2 sg' f' n') by congruence. assert (Ha : a = b) by congruence. clear R1 R2. subst b.
  pose proof (f_equal (fun s => ms_str (s_ms s)) Hs) as Hr. pose proof (f_equal s_store Hs) as Hg. cbn in Hr, Hg. subst r2 sg'. split; [eapply app_inv_tail; exact Ht|].
  eapply den_unique; [apply C1|apply C2|exact D1|exact D2| |]; unfold F, o; cbn [e_out with_out]; lia.
Qed.
(** In particular no symbol is a proper prefix of another. *)
Theorem no_symbol_inside_another : forall (E : env) (t u x y id id' : str) (G G' : tab),
  symbol E empty_tab t x id G -> symbol E empty_tab (t ++ u) y id' G' -> u = [].
Proof.
  intros E t u x y id id' G G' H1 H2. destruct (symbols_delimit_themselves E _ _ _ _ _ _ _ _ u [] H1 H2) as [H _]; [rewrite app_nil_r; reflexivity|].
  rewrite <- (app_nil_r t) in H at 1. apply app_inv_head in H. congruence.
Qed.

(** The meaning of a symbol is that of its declaration even with text after it; a concrete pair. *)
Example one_meaning_example : forall y, decorated (env_of 0) accepted_text y -> y = L "void __cdecl ns::f(class ns::vec<int> *)".
Proof. intros y Hy. exact (one_meaning _ _ _ _ Hy accepted_text_decorated). Qed.
Example delimit_example : exists x id G, symbol (env_of 0) empty_tab (L "?x@@3HA") x id G /\ forall u y id' G', symbol (env_of 0) empty_tab (L "?x@@3HA" ++ u) y id' G' -> u = [].
Proof.
  assert (Hi : ident (L "x")).
  { split; [repeat constructor|]. split; [intros [H|[]]; discriminate H|]. split; [reflexivity|discriminate]. }
  pose proof (va_plain (env_of 0) _ (ch "3") None (L "H") (TPrim Q_None Int) (remember (L "x") empty_tab) false false false sc_global (bo_prim _ _ Int) ltac:(discriminate)) as Hv.
  pose proof (sy_variable (env_of 0) empty_tab (L "x@") (IText (L "x")) _ (L "@") [] _ _ _ _ _ (L "x") (us_base _ _ _ _ _ (ub_name empty_tab (L "x") Hi)) (ch_end _ _) Hv (it_text _ _ _ _)) as Hs.
  do 3 eexists. split; [exact Hs|]. intros u y id' G'. exact (no_symbol_inside_another _ _ _ _ _ _ _ _ _ Hs).
Qed.
Print Assumptions one_meaning.
Print Assumptions symbols_delimit_themselves.
Print Assumptions no_symbol_inside_another.
