(** C41: a short text can stand for an exponentially long one without a single back-reference: a
    constructor repeats the name of its class, and the class may belong to the body of a constructor. *)
From Verif Require Import Parser Api Utf8 Lex Number Mangle Safety Limits Short Accepted Amplify Show Grammar.

(** ** Specification *)
(** The constructor [A::A(void)], or that of a class local to the previous constructor. *)
Fixpoint nested (d : nat) : str :=
  match d with O => L "??0A@@QAE@XZ" | S d => L "??0?1?" ++ nested d ++ L "@QAE@XZ" end.

(** ** What it stands for *)
Section Text.
  Variable E : env.
  Definition signature : ty := TFun (N.lor (extq false false false) (cvq false false)) (Some Thiscall) None None None false false.
  Fixpoint nested_text (d : nat) : str :=
    let c := match d with O => L "A" | S d => L "`" ++ nested_text d ++ L "'::`" ++ dec_N 2 ++ L "'" end in
    show_function E (FnClass (Some Public) false false false) NoAdjustment (Some signature) (qualified ([c] ++ [c])).
  Lemma show_function_longer k a sig name : length (utf8 name) <= length (utf8 (show_function E k a sig name)).
  Proof. unfold show_function. rewrite !utf8_app, !app_length. lia. Qed.
  Lemma nested_doubles d : 2 * length (utf8 (nested_text d)) < length (utf8 (nested_text (S d))).
  Proof.
    cbn [nested_text]. eapply Nat.lt_le_trans; [|apply show_function_longer]. unfold qualified. cbn [app join]. rewrite !utf8_app, !app_length.
    change (length (utf8 (L "`"))) with 1. lia.
  Qed.
  Lemma nested_lower d : 2 ^ d <= length (utf8 (nested_text d)).
  Proof.
    induction d as [|d IH]; [cbn [nested_text]; eapply Nat.le_trans; [|apply show_function_longer]; cbn; lia|].
    pose proof (nested_doubles d). rewrite Nat.pow_succ_r'. lia.
  Qed.
End Text.
Lemma nested_flags F E d : e_flags F = e_flags E -> e_alnum F = e_alnum E -> nested_text F d = nested_text E d.
Proof.
  intros H Ha. assert (Hs : forall n, show_function F (FnClass (Some Public) false false false) NoAdjustment (Some signature) n =
      show_function E (FnClass (Some Public) false false false) NoAdjustment (Some signature) n).
  { intros n. destruct F as [f1 f2 f3 f4 f5], E as [g1 g2 g3 g4 g5]. cbn [e_flags e_alnum] in H, Ha. subst. reflexivity. }
  induction d as [|d IH]; cbn [nested_text]; rewrite Hs; [reflexivity|]. rewrite IH. reflexivity.
Qed.

Section Reading.
  Variable E : env.
  Lemma nested_function G : function E G (L "QAE@XZ") (FnClass (Some Public) false false false) NoAdjustment (Some signature) G.
  Proof.
    pose proof (fu_typed E false G [class_letter Public 0 false] _ _ true _ _ G (cl_plain false Public false)
      (fn_intro E true G _ _ _ (ch "E") (Some Thiscall) (L "@") None G (L "X") None false G false
        (th_quals false false false [] None false false false rf_none) (cc_known (ch "E") Thiscall ltac:(left; reflexivity)) (re_none E G) (pl_void E G))) as H.
    exact H.
  Qed.
  Lemma scope_one : scope_number (L "1") 2.
  Proof. split; [|discriminate]. exact (num_digit 1 ltac:(lia)). Qed.
  Lemma nested_symbol d : (N.of_nat (length (utf8 (nested_text E d))) < e_out E)%N ->
    forall G, exists id G', symbol E G (nested d) (nested_text E d) id G'.
  Proof.
    assert (Hstep : forall G t c G1, piece E G t c G1 -> exists id G', symbol E G (L "??0" ++ t ++ L "@QAE@XZ")
        (show_function E (FnClass (Some Public) false false false) NoAdjustment (Some signature) (qualified ([c] ++ [c]))) id G').
    { intros G t c G1 Hp. exists c, G1.
      pose proof (sy_function E G (L "?0") (IStructor false []) G _ _ _ _ _ _ _ _ c (us_base E _ _ _ _ (ub_ctor G))
        (ch_cons E G _ _ _ _ _ _ Hp (ch_end E _)) (nested_function _)) as H.
      specialize (H ltac:(pose proof (it_structor E false [] [] c None) as Hi; cbn [app opt] in Hi; rewrite app_nil_r in Hi; exact Hi)).
      rewrite <- !app_assoc in H. exact H. }
    induction d as [|d IH]; intros Ho G.
    - apply (Hstep G (L "A@") (L "A") (remember (L "A") G)). apply (pc_name E G (L "A")), ident_A.
    - assert (Hd : (N.of_nat (length (utf8 (nested_text E d))) < e_out E)%N) by (pose proof (nested_doubles E d); lia).
      destruct (IH Hd G) as (id & G1 & Hs).
      pose proof (pc_local E G (L "1") 2 (nested d) (nested_text E d) id G1) as Hp.
      assert (Hf : fits E (L "`" ++ nested_text E d ++ L "'::`" ++ dec_N 2 ++ L "'")).
      { unfold fits. eapply N.le_lt_trans; [|exact Ho]. cbn [nested_text].
        set (c := L "`" ++ nested_text E d ++ L "'::`" ++ dec_N 2 ++ L "'").
        assert (Hl : length (utf8 c) <= length (utf8 (qualified ([c] ++ [c])))) by (unfold qualified; cbn [app join]; rewrite utf8_app, app_length; lia).
        pose proof (show_function_longer E (FnClass (Some Public) false false false) NoAdjustment (Some signature) (qualified ([c] ++ [c]))).
        assert (Hk : forall i j k : nat, i <= j -> j <= k -> (N.of_nat i <= N.of_nat k)%N) by (intros; lia). exact (Hk _ _ _ Hl H). }
      destruct (Hstep G _ _ _ (Hp Hf scope_one Hs)) as (id' & G' & H). exists id', G'.
      cbn [nested nested_text]. rewrite <- ?app_assoc in *. exact H.
  Qed.
End Reading.

Lemma nested_length d : length (nested d) = 13 * d + 12.
Proof. induction d as [|d IH]; [reflexivity|]. cbn [nested]. rewrite !app_length, IH. cbn [length L list_ascii_of_string map]. lia. Qed.
Lemma nested_rust d : rust_str (nested d).
Proof.
  induction d as [|d IH]; [repeat constructor|]. cbn [nested]. apply Forall_app; split; [repeat constructor|].
  apply Forall_app; split; [exact IH|repeat constructor].
Qed.

(** C41.  The [13 d + 12] characters of [nested d], which contain no back-reference, stand for a text
    of at least [2 ^ d] bytes under all flags; as with [amplification], the output limit decides. *)
Theorem amplification_without_references : forall (E : env) (d : nat), exists x : str,
  rust_str (nested d) /\ length (nested d) = 13 * d + 12 /\ 2 ^ d <= length (utf8 x) /\
  (forall n o, (N.of_nat (2 * length (nested d)) <= n)%N ->
     demangle_with (with_out (with_nodes E n) o) (nested d) =
       if (N.of_nat (length (utf8 x)) <? o)%N then Ok x else Err (Io OutOfMemory)) /\
  (length (nested d) <= 1638 ->
     demangle E (nested d) = if (N.of_nat (length (utf8 x)) <? 2 ^ 20)%N then Ok x else Err (Io OutOfMemory)).
Proof.
  intros E d. exists (nested_text E d). pose proof (nested_lower E d) as Hd.
  split; [apply nested_rust|]. split; [apply nested_length|]. split; [exact Hd|].
  assert (Hall : forall F, e_flags F = e_flags E -> e_alnum F = e_alnum E -> forall n o, (N.of_nat (2 * length (nested d)) <= n)%N ->
     demangle_with (with_out (with_nodes F n) o) (nested d) = if (N.of_nat (length (utf8 (nested_text E d))) <? o)%N then Ok (nested_text E d) else Err (Io OutOfMemory)).
  { intros F HF HA n o Hn. assert (HE : nested_text F d = nested_text E d) by (apply nested_flags; assumption). rewrite <- HE in *. apply threshold_exact; [apply nested_rust| |].
    - intros Hx. rewrite Hx in Hd. change (length (utf8 [])) with 0 in Hd. pose proof (Nat.pow_nonzero 2 d ltac:(lia)). lia.
    - intros o' Ho'. apply reading_outcome; [apply nested_rust| |exact Hn|exact Ho'].
      set (F' := with_out (with_nodes F n) o'). assert (HF' : nested_text F' d = nested_text F d) by (apply nested_flags; reflexivity).
      destruct (nested_symbol F' d) with (G := empty_tab) as (id & G' & Hs); [rewrite HF'; exact Ho'|].
      pose proof (de_symbol F' _ _ _ _ [] Hs) as Hr. rewrite app_nil_r, HF' in Hr. exact Hr. }
  split; [apply Hall; reflexivity|]. intros Hs.
  pose proof (short_never_malicious E (nested d) Hs) as Hm.
  destruct (node_budget_threshold (code_limits E) (nested d)) as (k & r & _ & Hk & _).
  pose proof (Hk 2048%N) as H1. change (demangle_with (with_nodes (code_limits E) 2048) (nested d)) with (demangle E (nested d)) in H1.
  destruct (N.leb_spec k 2048) as [_|_]; [|contradiction]. rewrite H1. clear Hm H1.
  set (n := N.max k (N.of_nat (2 * length (nested d)))). pose proof (Hk n) as H2. destruct (N.leb_spec k n) as [_|]; [|unfold n in *; lia]. rewrite <- H2.
  apply (Hall (code_limits E) eq_refl eq_refl n (2 ^ 20)%N). unfold n. lia.
Qed.
Print Assumptions amplification_without_references.

(** 25 characters for 99, 38 for 239, 51 for 519; 181 for 573399, and 194 are too many. *)
Example nested_1 : nested 1 = L "??0?1???0A@@QAE@XZ@QAE@XZ" /\
  demangle (env_of 0) (nested 1) = Ok (L "public: __thiscall `public: __thiscall A::A(void)'::`2'::`public: __thiscall A::A(void)'::`2'(void)") /\
  map (fun d => match demangle (env_of 0) (nested d) with Ok x => length x | _ => 0 end) [1; 2; 3] = [99; 239; 519].
Proof. vm_compute. repeat split. Qed.
