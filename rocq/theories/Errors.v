(** C39: which errors can be reported at all. *)
From Verif Require Import Parser Api Utf8 Lex ParseOk Step Show Grammar Number Safety Limits Trip NameRefs NumArr Members ParamRefs Budget.

(** ** Specification *)
(** Every error a caller may meet; the remaining values of the error type are dead. *)
Definition reported : list error :=
  [InvalidAnonymousNamespaceName; InvalidArrayType; InvalidBackRef; InvalidCallingConvention;
   InvalidCharLiteral; InvalidClassType; InvalidCustomType; InvalidDeclarator; InvalidEncodedSymbol;
   InvalidFullyQualifiedSymbolName; InvalidFunctionClass; InvalidFunctionEncoding;
   InvalidFunctionIdentifierCode; InvalidFunctionParameterList; InvalidInitFiniStub;
   InvalidIntrinsicFunctionCode; InvalidLocalStaticGuard; InvalidMd5Name; InvalidNameScopeChain;
   InvalidNumber; InvalidPrimitiveType; InvalidQualifiers; InvalidRttiBaseClassDescriptorNode;
   InvalidSigned; InvalidSimpleString; InvalidSpecialIntrinsic; InvalidSpecialTableSymbolNode;
   InvalidStringLiteral; InvalidTemplateInstantiationName; InvalidTemplateParameterList;
   InvalidThrowSpecification; InvalidType; InvalidTypeinfoName; InvalidUnsigned;
   InvalidUntypedVariable; InvalidVcallThunkNode; Io UnexpectedEof; Io OutOfMemory; MaliciousInput].
Definition dead : list error :=
  [InvalidFunctionType; InvalidLocallyScopedNamePiece; InvalidMemberPointerType; InvalidPointerCVQualifiers;
   InvalidPointerType; InvalidTagUniqueName; InvalidVariableStorageClass; Utf8Error].
(** The two lists split the error type. *)
Lemma lists_split : forall e, (In e reported \/ In e dead) /\ ~ (In e reported /\ In e dead).
Proof.
  intros e. split.
  - destruct e; try (destruct k); unfold reported, dead; cbn [In]; tauto.
  - intros [H1 H2]. unfold dead in H2. cbn [In] in H2.
    repeat (destruct H2 as [<-|H2]; [unfold reported in H1; cbn [In] in H1; repeat (destruct H1 as [H1|H1]; [discriminate H1|]); exact H1|]). exact H2.
Qed.

(** ** Nothing else is reported *)
Lemma used_reported s e : okerr s e \/ e = Io OutOfMemory -> In e reported.
Proof.
  intros [(H1 & _ & H2)| ->]; [|cbn; tauto].
  destruct e; try (destruct k); try discriminate H2; try congruence; unfold reported; cbn [In]; tauto.
Qed.
Theorem only_reported : forall (E : env) (s : str), rust_str s ->
  (forall e, demangle E s = Err e -> In e reported) /\
  (forall buf e, fst (demangle_into E s buf) = Err e -> In e reported).
Proof.
  intros E s Hs. split.
  - intros e He. pose proof (demangle_facts (code_limits E) s Hs eq_refl) as H. unfold demangle in He. rewrite He in H.
    eapply used_reported. exact H.
  - intros buf e He. destruct (run_facts (code_limits E) s buf Hs eq_refl) as [_ H]. unfold demangle_into in He.
    destruct (demangle_into_with (code_limits E) s buf) as [r b]; cbn [fst snd] in *. subst r. eapply used_reported. apply H.
Qed.

(** ** Each of them is *)
(** A name of [k] letters followed by [n] references to it. *)
Definition deep_scope (k n : nat) : str := L "?x@" ++ repeat (ch "a") k ++ L "@" ++ repeat (ch "1") n ++ L "@3HA".
Lemma deep_chain E a n : forall G, nth_error (fst G) 1 = Some a -> chain E G (repeat (ch "1") n ++ L "@") (repeat a n) G.
Proof.
  induction n as [|n IH]; intros G HG; cbn [repeat app]; [apply ch_end|].
  replace (a :: repeat a n) with (repeat a n ++ [a]) by (symmetry; apply repeat_cons).
  apply (ch_cons E G [ch "1"] a G _ (repeat a n) G); [apply (pc_ref E G 1 a); [lia|exact HG]|apply IH; exact HG].
Qed.
Lemma deep_demangles E k n : 2 <= k -> demangles_to E (deep_scope k n) (int_variable E (repeat (repeat (ch "a") k) (S n) ++ [L "x"])).
Proof.
  intros Hk. set (a := repeat (ch "a") k).
  assert (Ha : ident a).
  { unfold a. destruct k as [|k]; [lia|]. split; [|split; [|split]].
    - clear. generalize (S k). intros n. induction n; cbn [repeat]; constructor; [reflexivity|assumption].
    - intros H. apply repeat_spec in H. discriminate H.
    - reflexivity.
    - intros r; discriminate. }
  assert (Hx : ident (L "x")) by (split; [repeat constructor|split; [cbn; intuition discriminate|split; [reflexivity|discriminate]]]).
  assert (Hr : remember a (remember (L "x") empty_tab) = ([L "x"; a], [])).
  { unfold remember, empty_tab. cbn [fst snd length Nat.leb orb existsb app].
    assert (Hq : str_eqb a (L "x") = false).
    { unfold a. destruct k as [|k]; [lia|]. reflexivity. }
    rewrite Hq. reflexivity. }
  assert (Hc : chain (code_limits E) (remember (L "x") empty_tab) ((a ++ L "@") ++ repeat (ch "1") n ++ L "@") (repeat a n ++ [a]) ([L "x"; a], [])).
  { eapply ch_cons; [apply pc_name; exact Ha|]. rewrite Hr. apply deep_chain. reflexivity. }
  assert (Hv : variable (code_limits E) ([L "x"; a], []) (L "3HA") None (TPrim Q_None Int) ([L "x"; a], [])).
  { apply (va_plain (code_limits E) _ (ch "3") None (L "H") (TPrim Q_None Int) _ false false false); [constructor|apply (bo_prim _ _ Int)|discriminate]. }
  pose proof (sy_variable (code_limits E) empty_tab (L "x" ++ L "@") (IText (L "x")) _ _ _ _ _ _ _ _ (L "x") (us_base _ _ _ _ _ (ub_name empty_tab (L "x") Hx)) Hc Hv (it_text _ _ _ _)) as Hs.
  apply symbol_demangles in Hs. rewrite <- !app_assoc in Hs.
  unfold deep_scope, int_variable. cbn [repeat]. rewrite (repeat_cons n a), <- app_assoc. exact Hs.
Qed.
Lemma qualified_length a n : n * length a <= length (qualified (repeat a n ++ [L "x"])).
Proof.
  unfold qualified. induction n as [|n IH]; [cbn; lia|]. cbn [repeat app join].
  destruct (repeat a n ++ [L "x"]) as [|b l] eqn:Hb; [destruct n; discriminate|].
  rewrite !app_length. set (z := length (join (L "::") (b :: l))) in *. change (S n * length a) with (length a + n * length a). lia.
Qed.
Lemma int_variable_length E l : length (qualified l) <= length (int_variable E l).
Proof.
  unfold int_variable, show_variable. rewrite !app_length.
  destruct (negb (no_variable_type E) && negb (name_only E)); rewrite ?app_length; lia.
Qed.
Definition is_ok {A} (r : res A) : bool := match r with Ok _ => true | _ => false end.
(** The references cost no node, so the parser accepts a name that prints as a megabyte. *)
Lemma deep_parses E : is_ok (parse (code_limits E) (deep_scope 1100 1000)) = true.
Proof. vm_compute. reflexivity. Qed.
Lemma deep_rust k n : rust_str (deep_scope k n).
Proof.
  unfold deep_scope, rust_str. repeat (apply Forall_app; split); try (repeat constructor);
    apply Forall_forall; intros c Hc; apply repeat_spec in Hc; subst c; reflexivity.
Qed.
Lemma str_bytes_ge x : length x <= str_bytes x.
Proof.
  rewrite <- utf8_length. unfold utf8. induction x as [|c x IH]; [cbn; lia|]. cbn [flat_map length]. rewrite app_length, utf8_char_len.
  assert (1 <= utf8_len c) by (unfold utf8_len; repeat destruct (_ <? _)%N; lia). lia.
Qed.
Lemma deep_big E k n : 2 <= k -> (2 ^ 20 <= N.of_nat (S n * k))%N -> is_ok (parse (code_limits E) (deep_scope k n)) = true ->
  demangle E (deep_scope k n) = Err (Io OutOfMemory).
Proof.
  intros Hk Hb Hp. pose proof (deep_demangles E k n Hk []) as H. rewrite app_nil_r in H. specialize (H (deep_rust _ _)).
  destruct H as [H|[_ H]].
  - rewrite H. unfold outcome. rewrite utf8_length. set (a := repeat (ch "a") k) in *.
    assert (Hl : length a = k) by apply repeat_length.
    pose proof (str_bytes_ge (int_variable E (repeat a (S n) ++ [L "x"]))) as H1.
    pose proof (int_variable_length E (repeat a (S n) ++ [L "x"])) as H2.
    pose proof (qualified_length a (S n)) as H3. rewrite Hl in H3.
    set (z := S n * k) in *. set (y := str_bytes _) in *. clearbody z y.
    destruct (N.ltb_spec (N.of_nat y) (2 ^ 20)) as [Hlt|_]; [|reflexivity]. lia.
  - unfold demangle, demangle_with, demangle_into_with, clear in H. destruct (parse (code_limits E) (deep_scope k n)) as [[h st]|e| |]; try discriminate Hp.
    exfalso. clear Hp. destruct (output_nodes (code_limits E) 0 (s_store st) KSym h (mkBuf [] 0)) as [_ Hq]. cbn [b_cap] in H.
    destruct (output (code_limits E) (s_store st) KSym h (mkBuf [] 0)) as [ob r]. cbn [snd] in Hq.
    destruct r as [[]|e| |]; try discriminate H; [|congruence].
    destruct (from_utf8 (b_bytes ob)) as [y|] eqn:Hu; [rewrite Hu in H|]; discriminate H.
Qed.
Lemma deep_out_of_memory E : demangle E (deep_scope 1100 1000) = Err (Io OutOfMemory).
Proof. apply deep_big; [lia|vm_compute; discriminate|apply deep_parses]. Qed.
(** One short input for every error but the two limits. *)
Definition witnesses : list (error * string) :=
  [(InvalidAnonymousNamespaceName, "?x@?A"%string);
   (InvalidArrayType, "?x@@3Y0?0H"%string);
   (InvalidBackRef, "?x@1@3HA"%string);
   (InvalidType, "?x@@YA"%string);
   (InvalidCallingConvention, "?x@@Y"%string);
   (InvalidTemplateParameterList, "??$x@$0A@"%string);
   (InvalidCharLiteral, "??_C@_00AA@?$Z"%string);
   (InvalidClassType, "?x@@3W5A"%string);
   (InvalidCustomType, "?x@@3?a@b"%string);
   (InvalidDeclarator, "??Bx@@3HA"%string);
   (InvalidEncodedSymbol, "?x@@"%string);
   (InvalidFullyQualifiedSymbolName, "??0@"%string);
   (InvalidFunctionClass, "?x@@5"%string);
   (InvalidFunctionEncoding, "?x@@$$J0"%string);
   (InvalidFunctionIdentifierCode, "??"%string);
   (InvalidFunctionParameterList, "?x@@YAXH"%string);
   (InvalidSimpleString, "?x"%string);
   (InvalidNameScopeChain, "?x@"%string);
   (InvalidLocalStaticGuard, "??_Bx@@6"%string);
   (InvalidMd5Name, "??@a"%string);
   (InvalidNumber, "??_R1A"%string);
   (InvalidPrimitiveType, "?x@@3Z"%string);
   (InvalidInitFiniStub, "??__Ea@@3HA"%string);
   (InvalidIntrinsicFunctionCode, "??_d@"%string);
   (InvalidQualifiers, "?x@@3PAHZ"%string);
   (InvalidRttiBaseClassDescriptorNode, "??_R1A@A@A@A@x@@9"%string);
   (InvalidSigned, "??_R1A@PPPPPPPPPPPPPPPPP@A@A@x@@8"%string);
   (InvalidSpecialIntrinsic, "??_A"%string);
   (InvalidSpecialTableSymbolNode, "??_7a@@5"%string);
   (InvalidStringLiteral, "??_C@_2"%string);
   (InvalidTemplateInstantiationName, "?x@?$?BH@@3HA"%string);
   (InvalidThrowSpecification, "?f@@YAXXA"%string);
   (InvalidTypeinfoName, ".?AVa@@x"%string);
   (InvalidUnsigned, "??_R1?0"%string);
   (InvalidUntypedVariable, "??_R2a@@9"%string);
   (InvalidVcallThunkNode, "??_9a@@$A"%string);
   (Io UnexpectedEof, "x"%string)].
Lemma witnesses_ok E : Forall (fun w => rust_str (L (snd w)) /\ demangle E (L (snd w)) = Err (fst w)) witnesses.
Proof. repeat (constructor; [split; [repeat constructor|vm_compute; reflexivity]|]). constructor. Qed.

(** ** C39 *)
(** Under every flag word each error of the first list is reported for some input, and no other
    error for any. *)
Theorem reported_exactly : forall (E : env) (e : error),
  In e reported <-> exists s, rust_str s /\ demangle E s = Err e.
Proof.
  intros E e. split; [|intros (s & Hs & He); apply (proj1 (only_reported E s Hs)), He].
  intros He.
  assert (Hc : In e (map fst witnesses) \/ e = Io OutOfMemory \/ e = MaliciousInput).
  { unfold reported in He. cbn [In] in He. repeat (destruct He as [<-|He]; [cbn [map fst witnesses In]; tauto|]). destruct He. }
  destruct Hc as [Hc|[-> | ->]].
  - apply in_map_iff in Hc. destruct Hc as ([e' w] & <- & Hw). pose proof (witnesses_ok E) as H. rewrite Forall_forall in H.
    specialize (H _ Hw). exists (L w). exact H.
  - exists (deep_scope 1100 1000). split; [apply deep_rust|apply deep_out_of_memory].
  - exists (letters_function (repeat (ch "H", Int) 2041)). split.
    + unfold letters_function, rust_str. apply Forall_app. split; [repeat constructor|]. apply Forall_app. split; [|repeat constructor].
      apply Forall_map, Forall_forall. intros c Hc; apply repeat_spec in Hc; subst c; reflexivity.
    + rewrite parameter_budget; [rewrite repeat_length; reflexivity|]. apply Forall_forall. intros p Hp. apply repeat_spec in Hp. subst p. cbn; tauto.
Qed.
(** The errors of the second list are never reported: in particular the output is always UTF-8,
    and a pointer, a storage class or a local scope that the look-ahead has recognised is read
    without a complaint of its own. *)
Theorem dead_errors : forall (E : env) (s : str) (e : error), rust_str s -> In e dead ->
  demangle E s <> Err e /\ forall buf, fst (demangle_into E s buf) <> Err e.
Proof.
  intros E s e Hs He. pose proof (only_reported E s Hs) as [H1 H2].
  split; [intros H; apply H1 in H|intros buf H; apply H2 in H]; apply (proj2 (lists_split e)); auto.
Qed.
Print Assumptions only_reported.
Print Assumptions dead_errors.
Print Assumptions reported_exactly.
(** Each witness is a case; two of them, with what the caller sees. *)
Example reported_case : demangle (env_of 0) (L "??_7a@@5") = Err InvalidSpecialTableSymbolNode /\ demangle (env_of NAME_ONLY) (L "?x@@3PAHZ") = Err InvalidQualifiers.
Proof. split; vm_compute; reflexivity. Qed.
