(** C41: a short text can stand for an exponentially long one; only the output limit stops it. *)
From Verif Require Import Parser Api Utf8 Literal Den Emit Lex Safety Step Number Pend ReadAt Round RoundNames RoundTypes RoundBody RoundArgs RoundSyms RoundSpecials Limits Short StrLit Trip NumArr Specials Accepted Unique Show Grammar.

(** ** Specification *)
(** The encoding of a class: [a], or the instantiation of the template [A] with the previous
    class, written out, and that class again, as a back-reference. *)
Fixpoint doubled (d : nat) : str :=
  match d with O => L "a@" | S d => L "?$A@V" ++ doubled d ++ L "@V1@@" end.
(** The static member [int x] of that class. *)
Definition amplifier (d : nat) : str := L "?x@" ++ doubled d ++ L "@3HA".

(** ** What it stands for *)
Section Text.
  Variable E : env.
  Fixpoint doubled_text (d : nat) : str :=
    match d with
    | O => L "a"
    | S d => L "A" ++ L "<" ++ join (L ", ") [show E (TTag Q_None TKClass [doubled_text d]); show E (TTag Q_None TKClass [doubled_text d])] ++ L ">"
    end.
  Definition amplified (d : nat) : str := show_variable E None (TPrim Q_None Int) (qualified ([doubled_text d] ++ [L "x"])).

  Lemma show_class n : show E (TTag Q_None TKClass [n]) = opt (negb (no_tag_specifier E) && negb (name_only E)) (L "class ") ++ n.
  Proof. unfold show. cbn [pre post]. unfold quals_after, qual_words. cbn [contains]. rewrite app_nil_r. change (concat _) with (@nil N). rewrite app_nil_r. reflexivity. Qed.
  Lemma doubled_text_length d : 2 * length (doubled_text d) < length (doubled_text (S d)).
  Proof. cbn [doubled_text join]. rewrite !show_class, !app_length. cbn [length L list_ascii_of_string map]. lia. Qed.
  Lemma doubled_text_lower d : 2 ^ d <= length (doubled_text d).
  Proof. induction d as [|d IH]; [cbn; lia|]. pose proof (doubled_text_length d). rewrite Nat.pow_succ_r'. lia. Qed.
  Lemma amplified_text d : amplified d = opt (negb (no_variable_type E) && negb (name_only E)) (L "int ") ++ doubled_text d ++ L "::x".
  Proof.
    unfold amplified, show_variable, show_access, show_member_type. cbn [qualified join app opt].
    replace (opt (negb (no_access_specifier E) && negb (name_only E)) []) with (@nil N) by (destruct (_ && _); reflexivity).
    replace (opt (negb (no_member_type E) && negb (name_only E)) _) with (@nil N) by (destruct (_ && _); reflexivity).
    cbn [app]. destruct (negb (no_variable_type E) && negb (name_only E)); [|reflexivity]. cbn [opt pre post]. rewrite !app_nil_r. reflexivity.
  Qed.
  Lemma doubled_ascii d : Forall (fun c => (c < 128)%N) (doubled_text d).
  Proof.
    induction d as [|d IH]; [repeat constructor|]. cbn [doubled_text join]. rewrite !show_class.
    assert (Ho : Forall (fun c => (c < 128)%N) (opt (negb (no_tag_specifier E) && negb (name_only E)) (L "class ") ++ doubled_text d)).
    { apply Forall_app. split; [destruct (_ && _); repeat constructor|exact IH]. }
    apply Forall_app; split; [repeat constructor|]. apply Forall_app; split; [repeat constructor|]. apply Forall_app; split; [|repeat constructor].
    apply Forall_app; split; [exact Ho|]. apply Forall_app; split; [repeat constructor|exact Ho].
  Qed.
  Lemma amplified_ascii d : Forall (fun c => (c < 128)%N) (amplified d).
  Proof.
    rewrite amplified_text. apply Forall_app; split; [destruct (_ && _); repeat constructor|]. apply Forall_app; split; [apply doubled_ascii|repeat constructor].
  Qed.
  Lemma amplified_longer d : length (doubled_text d) < length (amplified d).
  Proof. rewrite amplified_text, !app_length. cbn. lia. Qed.

End Text.
Lemma doubled_flags F E d : e_flags F = e_flags E -> doubled_text F d = doubled_text E d.
Proof.
  intros H. induction d as [|d IH]; [reflexivity|]. cbn [doubled_text]. rewrite !show_class, IH.
  unfold no_tag_specifier, name_only. rewrite H. reflexivity.
Qed.
Lemma amplified_flags F E d : e_flags F = e_flags E -> amplified F d = amplified E d.
Proof. intros H. rewrite !amplified_text, (doubled_flags F E d H). unfold no_variable_type, name_only. rewrite H. reflexivity. Qed.

(** ** It is a decorated name *)
Section Reading.
  Variable E : env.
  Notation doubled_text := (doubled_text E).
  Notation amplified := (amplified E).
  Lemma ident_one c : ident [c] <-> ustr [c] /\ c <> ch "@" /\ is_digit c = false /\ c <> ch "?".
  Proof. unfold ident. cbn. intuition congruence. Qed.
  Lemma doubled_first d : exists t, doubled_text d = L "a" /\ d = 0 \/ doubled_text d = L "A<" ++ t.
  Proof. destruct d as [|d]; [exists []; left; auto|]. eexists. right. reflexivity. Qed.
  Lemma ident_a : ident (L "a").
  Proof. apply (ident_one (ch "a")). split; [repeat constructor|]. repeat split; discriminate. Qed.
  Lemma ident_A : ident (L "A").
  Proof. apply (ident_one (ch "A")). split; [repeat constructor|]. repeat split; discriminate. Qed.
  Lemma ident_x : ident (L "x").
  Proof. apply (ident_one (ch "x")). split; [repeat constructor|]. repeat split; discriminate. Qed.
  Lemma doubled_template d : (forall G, tname E G (doubled d) (doubled_text d) (remember (doubled_text d) G)) ->
    (N.of_nat (length (doubled_text (S d))) < e_out E)%N -> template E (doubled (S d)) (doubled_text (S d)).
  Proof.
    intros IH Ho. set (G1 := remember (L "A") empty_tab). set (G2 := remember (doubled_text d) G1).
    assert (HG : nth_error (fst G2) 1 = Some (doubled_text d)).
    { unfold G2, G1. destruct (doubled_first d) as (t & [[-> _]| ->]); reflexivity. }
    pose proof (tg_type E _ _ _ _ (bo_tag E G1 TKClass _ _ _ (qn_intro E G1 _ _ _ _ _ _ (IH G1) (ch_end E _)))) as H1.
    pose proof (tg_type E _ _ _ _ (bo_tag E G2 TKClass _ _ _ (qn_intro E G2 _ _ _ _ _ _ (tn_ref E G2 1 _ ltac:(lia) HG) (ch_end E _)))) as H2.
    pose proof (ta_cons E _ _ _ _ _ _ _ H1 (ta_cons E _ _ _ _ _ _ _ H2 (ta_end E _))) as Ha.
    assert (Hf : fits E (L "A" ++ L "<" ++ join (L ", ") [show E (TTag Q_None TKClass ([] ++ [doubled_text d])); show E (TTag Q_None TKClass ([] ++ [doubled_text d]))] ++ L ">")).
    { unfold fits. rewrite utf8_ascii; [exact Ho|exact (doubled_ascii E (S d))]. }
    pose proof (tp_intro E _ _ _ _ _ _ Hf (tb_base E _ _ _ (ub_name empty_tab (L "A") ident_A)) Ha) as Ht.
    cbn [doubled doubled_text]. rewrite <- !app_assoc in Ht. exact Ht.
  Qed.
  Lemma doubled_tname d : (N.of_nat (length (doubled_text d)) < e_out E)%N ->
    forall G, tname E G (doubled d) (doubled_text d) (remember (doubled_text d) G).
  Proof.
    induction d as [|d IH]; intros Ho G; [apply (tn_name E G (L "a")), ident_a|].
    pose proof (doubled_text_length E d) as Hl. apply tn_template, doubled_template; [|exact Ho]. apply IH. lia.
  Qed.
  Lemma doubled_piece d : (N.of_nat (length (doubled_text d)) < e_out E)%N ->
    forall G, piece E G (doubled d) (doubled_text d) (remember (doubled_text d) G).
  Proof.
    intros Ho G. destruct d as [|d]; [apply (pc_name E G (L "a")), ident_a|].
    pose proof (doubled_text_length E d) as Hl. apply pc_template, doubled_template; [|exact Ho]. apply doubled_tname. lia.
  Qed.
  Lemma amplifier_reading d : (N.of_nat (length (doubled_text d)) < e_out E)%N -> reading E (amplifier d) (amplified d).
  Proof.
    intros Ho. set (G1 := remember (L "x") empty_tab). set (G2 := remember (doubled_text d) G1).
    pose proof (va_plain E G2 (ch "3") None (L "H") (TPrim Q_None Int) G2 false false false sc_global (bo_prim E _ Int) ltac:(discriminate)) as Hv.
    pose proof (sy_variable E empty_tab (L "x@") (IText (L "x")) G1 _ _ _ _ _ _ _ (L "x") (us_base E _ _ _ _ (ub_name empty_tab (L "x") ident_x))
      (ch_cons E G1 _ _ _ _ _ _ (doubled_piece d Ho G1) (ch_end E _)) Hv (it_text E _ _ _)) as Hs.
    pose proof (de_symbol E _ _ _ _ [] Hs) as Hr. rewrite app_nil_r in Hr. unfold amplifier, amplified.
    replace (L "?x@" ++ doubled d ++ L "@3HA") with (L "?" ++ L "x@" ++ (doubled d ++ L "@") ++ [ch "3"] ++ L "H" ++ [cv_code false false false]); [exact Hr|].
    rewrite <- !app_assoc. reflexivity.
  Qed.
End Reading.

Lemma amplifier_length d : length (amplifier d) = 10 * d + 9.
Proof.
  unfold amplifier. rewrite !app_length. assert (H : length (doubled d) = 10 * d + 2).
  { induction d as [|d IH]; [reflexivity|]. cbn [doubled]. rewrite !app_length, IH. cbn. lia. }
  rewrite H. cbn. lia.
Qed.
Lemma amplifier_rust d : rust_str (amplifier d).
Proof.
  unfold amplifier. apply Forall_app; split; [repeat constructor|]. apply Forall_app; split; [|repeat constructor].
  induction d as [|d IH]; [repeat constructor|]. cbn [doubled]. apply Forall_app; split; [repeat constructor|]. apply Forall_app; split; [exact IH|repeat constructor].
Qed.

(** ** Outcomes under any limits *)
(** A decorated name demangles to its text, if that fits, under every node budget of twice its length. *)
Theorem reading_outcome : forall (F : env) (s x : str), rust_str s -> reading F s x -> (N.of_nat (2 * length s) <= e_nodes F)%N ->
  (N.of_nat (length (utf8 x)) < e_out F)%N -> demangle_with F s = Ok x.
Proof.
  intros F s x Hs Hr Hn Ho. apply reading_reads, wp_run in Hr; [|exact Hn]. destruct Hr as (h & st & R & w & C & D).
  unfold demangle_with, demangle_into_with. change (k_parse (knot_of F (S (length s))) (at_ s [] [] [])) with (parse F s) in R. rewrite R.
  destruct (output_den F w (s_store st) KSym h x (clear (mkBuf [] 0)) C D eq_refl) as [(b & O & B & U)|(b & O & B)]; [|lia].
  rewrite O, B, (from_utf8_utf8 x U), B, (from_utf8_utf8 x U). reflexivity.
Qed.
Lemma utf8_char_pos c : 0 < length (utf8_char c).
Proof. unfold utf8_char. repeat destruct (_ <? _)%N; cbn; lia. Qed.
Lemma threshold_exact E s x o : rust_str s -> x <> [] -> (forall o, (N.of_nat (length (utf8 x)) < o)%N -> demangle_with (with_out E o) s = Ok x) ->
  demangle_with (with_out E o) s = if (N.of_nat (length (utf8 x)) <? o)%N then Ok x else Err (Io OutOfMemory).
Proof.
  intros Hs Hx H. destruct (N.ltb_spec (N.of_nat (length (utf8 x))) o) as [Ho|Ho]; [apply H; exact Ho|].
  destruct (output_limit_threshold E s) as (k & r & _ & Hk). rewrite Hk. destruct (N.leb_spec k o) as [Hko|]; [exfalso|reflexivity].
  set (o1 := (N.of_nat (length (utf8 x)) + 1 + N.max o k)%N). pose proof (H o1 ltac:(unfold o1; lia)) as H1. rewrite Hk in H1.
  destruct (N.leb_spec k o1) as [_|]; [|unfold o1 in *; lia]. subst r.
  set (o2 := N.of_nat (length (utf8 x))). pose proof (Hk o2) as H2. destruct (N.leb_spec k o2) as [_|]; [|unfold o2 in *; lia].
  assert (Hp : (0 < o2)%N) by (destruct x as [|c x]; [contradiction|]; unfold o2; change (utf8 (c :: x)) with (utf8_char c ++ utf8 x); rewrite app_length; pose proof (utf8_char_pos c); lia).
  pose proof (demangle_facts (with_out E o2) s Hs Hp) as Hf. rewrite H2 in Hf. cbn [e_out with_out] in Hf. unfold o2 in Hf. lia.
Qed.

(** C41.  For every [d] there is a text of [10 d + 9] characters that stands for one of at least
    [2 ^ d] characters, whatever the flags: given nodes enough, it demangles to that text when the
    output limit is above it, and is otherwise rejected with [Io OutOfMemory]. *)
Theorem amplification : forall (E : env) (d : nat), exists s x : str,
  rust_str s /\ length s = 10 * d + 9 /\ 2 ^ d <= length x /\ utf8 x = x /\
  (forall n o, (N.of_nat (2 * length s) <= n)%N ->
     demangle_with (with_out (with_nodes E n) o) s = if (N.of_nat (length x) <? o)%N then Ok x else Err (Io OutOfMemory)) /\
  (length s <= 1638 -> demangle E s = if (N.of_nat (length x) <? 2 ^ 20)%N then Ok x else Err (Io OutOfMemory)).
Proof.
  intros E d. exists (amplifier d), (amplified E d). pose proof (amplified_longer E d) as Hl. pose proof (doubled_text_lower E d) as Hd.
  pose proof (utf8_ascii _ (amplified_ascii E d)) as Hu. split; [apply amplifier_rust|]. split; [apply amplifier_length|]. split; [lia|]. split; [exact Hu|].
  assert (Hall : forall F, e_flags F = e_flags E -> forall n o, (N.of_nat (2 * length (amplifier d)) <= n)%N ->
     demangle_with (with_out (with_nodes F n) o) (amplifier d) = if (N.of_nat (length (amplified E d)) <? o)%N then Ok (amplified E d) else Err (Io OutOfMemory)).
  { intros F HF n o Hn. assert (HE : amplified F d = amplified E d) by (apply amplified_flags; exact HF). rewrite <- HE in *. rewrite <- Hu at 1. apply threshold_exact; [apply amplifier_rust| |].
    - intros Hx. rewrite Hx in Hl. cbn in Hl. lia.
    - intros o' Ho'. apply reading_outcome; [apply amplifier_rust| |exact Hn|exact Ho'].
      replace (amplified F d) with (amplified (with_out (with_nodes F n) o') d) by (apply amplified_flags; reflexivity).
      apply amplifier_reading. cbn [e_out with_out]. rewrite (doubled_flags (with_out (with_nodes F n) o') F d eq_refl). pose proof (amplified_longer F d). rewrite Hu in Ho'. lia. }
  split; [apply Hall; reflexivity|]. intros Hs.
  pose proof (short_never_malicious E (amplifier d) Hs) as Hm.
  destruct (node_budget_threshold (code_limits E) (amplifier d)) as (k & r & _ & Hk & _).
  pose proof (Hk 2048%N) as H1. change (demangle_with (with_nodes (code_limits E) 2048) (amplifier d)) with (demangle E (amplifier d)) in H1.
  destruct (N.leb_spec k 2048) as [_|_]; [|contradiction]. rewrite H1. clear Hm H1.
  set (n := N.max k (N.of_nat (2 * length (amplifier d)))). pose proof (Hk n) as H2. destruct (N.leb_spec k n) as [_|]; [|unfold n in *; lia]. rewrite <- H2.
  apply (Hall (code_limits E) eq_refl n (2 ^ 20)%N). unfold n. lia.
Qed.
Print Assumptions reading_outcome.
Print Assumptions amplification.
(** Hence the output limit of the code is what stops texts of 209 to 1638 characters of this shape. *)
Theorem output_limit_needed : forall (E : env) (d : nat), 20 <= d <= 162 -> exists s x : str,
  rust_str s /\ length s = 10 * d + 9 /\ demangle E s = Err (Io OutOfMemory) /\
  2 ^ d <= length x /\ exists n o, demangle_with (with_out (with_nodes E n) o) s = Ok x.
Proof.
  intros E d Hd. destruct (amplification E d) as (s & x & Hs & Hl & Hx & Hu & Hr & Hc). exists s, x. split; [exact Hs|]. split; [exact Hl|]. split.
  - rewrite Hc by lia. destruct (N.ltb_spec (N.of_nat (length x)) (2 ^ 20)) as [H|H]; [exfalso|reflexivity].
    assert (H20 : 2 ^ 20 <= 2 ^ d) by (apply Nat.pow_le_mono_r; lia).
    assert (Hz : (N.of_nat (2 ^ 20) <= N.of_nat (length x))%N) by lia. rewrite Nat2N.inj_pow in Hz. lia.
  - split; [exact Hx|]. exists (N.of_nat (2 * length s)), (N.of_nat (length x) + 1)%N. rewrite Hr by lia.
    destruct (N.ltb_spec (N.of_nat (length x)) (N.of_nat (length x) + 1)); [reflexivity|lia].
Qed.
Print Assumptions output_limit_needed.

(** The texts themselves: 39 characters for 134, and 49 for 278. *)
Example amplifier_3 : amplifier 3 = L "?x@?$A@V?$A@V?$A@Va@@V1@@@V1@@@V1@@@3HA" /\
  demangle (env_of 0) (amplifier 2) = Ok (L "int A<class A<class a, class a>, class A<class a, class a>>::x") /\
  map (fun d => match demangle (env_of 0) (amplifier d) with Ok x => length x | _ => 0 end) [2; 3; 4; 5] = [62; 134; 278; 566].
Proof. vm_compute. repeat split. Qed.
