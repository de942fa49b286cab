(** C45: characters beyond U+00FF are opaque.  Renaming the characters beyond U+00FF of an input
    consistently renames them in the text and changes nothing else; the Unicode tables matter
    only for the classes of the input's own characters. *)
From Verif Require Import Parser Api Utf8 Wf ParseOk Safety Alike AlikeParse.

(** ** Specification vocabulary *)

(** [r] is a renaming of the characters of [s] that two machines cannot tell from the identity:
    it keeps the characters up to U+00FF, sends the others beyond U+00FF, to characters of the
    same UTF-8 length that the second machine classifies as the first classifies the originals,
    and it keeps different characters of [s] different. *)
Record renaming (E E' : env) (s : str) (r : N -> N) : Prop := {
  rn_keeps : forall c, (c < 256)%N -> r c = c;
  rn_beyond : forall c, In c s -> (256 <= c)%N -> (256 <= r c)%N /\ scalar (r c) = true /\ utf8_len (r c) = utf8_len c;
  rn_distinct : forall a b, In a s -> In b s -> r a = r b -> a = b;
  rn_class : forall c, In c s -> (128 <= c)%N -> e_alnum E' (r c) = e_alnum E c
}.
(** The outcome with the characters of its text renamed. *)
Definition renamed (r : N -> N) (x : res str) : res str := match x with Ok t => Ok (map r t) | e => e end.

Lemma renaming_alike E E' s r : rust_str s -> renaming E E' s r ->
  alike (e_alnum E) (e_alnum E') (fun c c' => c' = r c /\ from_input s c).
Proof.
  intros Hs [H1 H2 H3 H4]. assert (Hin : forall c, from_input s c -> (128 <= c)%N -> In c s) by (intros c [H|H] Hc; [lia|exact H]).
  assert (Hsc : forall c, from_input s c -> scalar c = true) by (apply from_input_scalar; assumption).
  constructor.
  - intros c Hc. split; [symmetry; apply H1; lia|left; lia].
  - intros c c' [-> Hc]. destruct (N.lt_ge_cases c 256) as [Hl|Hl]; [left; symmetry; auto|right]. split; [assumption|]. apply H2; [apply Hin; [assumption|lia]|assumption].
  - intros a a' b b' [-> Ha] [-> Hb].
    assert (Hi : r a = r b -> a = b).
    { intros Heq. destruct (N.lt_ge_cases a 128) as [Hal|Hal]; [|destruct (N.lt_ge_cases b 128) as [Hbl|Hbl]; [|auto]].
      - destruct (N.lt_ge_cases b 256) as [Hbl|Hbl]; [rewrite (H1 a), (H1 b) in Heq by lia; assumption|].
        destruct (H2 b (Hin b Hb ltac:(lia)) Hbl) as (G & _). rewrite (H1 a) in Heq by lia. lia.
      - destruct (N.lt_ge_cases a 256) as [Ha2|Ha2]; [rewrite (H1 a), (H1 b) in Heq by lia; assumption|].
        destruct (H2 a (Hin a Ha ltac:(lia)) Ha2) as (G & _). rewrite (H1 b) in Heq by lia. lia. }
    destruct (N.eqb_spec a b) as [Hn|Hn], (N.eqb_spec (r a) (r b)) as [Hr|Hr]; try reflexivity; [congruence|]. exfalso. auto.
  - intros c c' [-> Hc]. destruct (N.lt_ge_cases c 256) as [Hl|Hl]; [rewrite H1 by assumption; reflexivity|]. symmetry. apply H2; [apply Hin; [assumption|lia]|assumption].
  - intros c c' [-> Hc]. split; [auto|]. destruct (N.lt_ge_cases c 256) as [Hl|Hl]; [rewrite H1 by assumption; auto|]. apply H2; [apply Hin; [assumption|lia]|assumption].
  - intros c c' [-> Hc] Hl. symmetry. apply H4; auto.
Qed.
Lemma Rs_map s r l l' : Rs (fun c c' => c' = r c /\ from_input s c) l l' -> l' = map r l.
Proof. induction 1 as [|c c' l l' [-> _] _ IH]; cbn; congruence. Qed.

Lemma opaque_with E E' s r : rust_str s -> renaming E E' s r ->
  e_flags E' = e_flags E -> e_nodes E' = e_nodes E -> e_out E' = e_out E ->
  demangle_with E' (map r s) = renamed r (demangle_with E s).
Proof.
  intros Hs Hr Hf Hn Ho. pose proof (renaming_alike E E' s r Hs Hr) as HA.
  assert (He : E = envL (e_alnum E) (e_flags E) (e_nodes E) (e_out E) (e_grow E)) by (destruct E; reflexivity).
  assert (He' : E' = envR (e_alnum E') (e_flags E) (e_nodes E) (e_out E) (e_grow E')) by (destruct E'; cbn in *; subst; reflexivity).
  set (fl := e_flags E) in *. set (nd := e_nodes E) in *. set (ou := e_out E) in *. set (al := e_alnum E) in *. set (al' := e_alnum E') in *.
  set (gr := e_grow E) in *. set (gr' := e_grow E') in *. rewrite He, He'. clearbody fl nd ou al al' gr gr'. clear He He' Hf Hn Ho.
  assert (Hss : Rs (fun c c' => c' = r c /\ from_input s c) s (map r s)).
  { clear. assert (G : forall l, (forall c, In c l -> In c s) -> Rs (fun c c' => c' = r c /\ from_input s c) l (map r l)).
    { induction l as [|c l IH]; intros Hl; [constructor|]. cbn [map]. constructor.
      - split; [reflexivity|right; apply Hl; left; reflexivity].
      - apply IH. intros d Hd. apply Hl. right. exact Hd. }
    apply G. auto. }
  pose proof (rel_parse _ _ _ HA fl nd ou gr gr' s (map r s) Hss) as Hp. unfold demangle_with, demangle_into_with.
  destruct (parse (envL al fl nd ou gr) s) as [[h t]|e| |], (parse (envR al' fl nd ou gr') (map r s)) as [[h' t']|e'| |]; cbn [rr] in Hp; try contradiction; cbn [renamed]; try congruence.
  destruct Hp as [<- Ht].
  destruct (relw_output _ _ _ HA fl nd ou gr gr' (s_store t) (s_store t') KSym h (sr_store _ _ _ Ht)
    (clear (mkBuf [] 0)) (clear (mkBuf [] 0)) (brel_nil _ _ _)) as [Heq Hb].
  destruct (output _ (s_store t) KSym h _) as [b [[]|e| |]], (output _ (s_store t') KSym h _) as [b' x']; cbn [fst snd] in *; subst x'; try reflexivity.
  destruct (brel_decode _ _ _ HA _ _ (Hb eq_refl)) as (u & u' & H1 & H2 & H3). rewrite H1, H2, ?H1, ?H2. cbn [renamed].
  rewrite (Rs_map _ _ _ _ H3). reflexivity.
Qed.
Lemma renaming_scalar E E' s r : rust_str s -> renaming E E' s r -> rust_str (map r s).
Proof.
  intros Hs Hr. unfold rust_str in *. rewrite Forall_forall in *. intros c Hc. apply in_map_iff in Hc. destruct Hc as (d & <- & Hd).
  destruct (N.lt_ge_cases d 256) as [Hl|Hl]; [rewrite (rn_keeps _ _ _ _ Hr) by assumption; auto|]. apply (rn_beyond _ _ _ _ Hr); assumption.
Qed.

(** ** C45 *)

(** A renaming of the input's characters renames the text and changes nothing else: same verdict,
    same error, and the text of the one call is the renamed text of the other. *)
Theorem wide_characters_are_opaque : forall (E E' : env) (s : str) (r : N -> N), rust_str s ->
  e_flags E' = e_flags E -> renaming E E' s r -> demangle E' (map r s) = renamed r (demangle E s).
Proof.
  intros E E' s r Hs Hf Hr. apply opaque_with; try reflexivity; [assumption| |exact Hf]. destruct Hr. split; assumption.
Qed.
Print Assumptions wide_characters_are_opaque.

(** The same for [demangle_into], whatever the two buffers held. *)
Theorem wide_characters_are_opaque_into : forall (E E' : env) (s : str) (r : N -> N) (buf buf' : string_buf), rust_str s ->
  e_flags E' = e_flags E -> renaming E E' s r ->
  fst (demangle_into E' (map r s) buf') = fst (demangle_into E s buf) /\
  exists t, b_bytes (snd (demangle_into E s buf)) = utf8 t /\ b_bytes (snd (demangle_into E' (map r s) buf')) = utf8 (map r t).
Proof.
  intros E E' s r buf buf' Hs Hf Hr. pose proof (wide_characters_are_opaque E E' s r Hs Hf Hr) as H.
  pose proof (renaming_scalar E E' s r Hs Hr) as Hs'.
  pose proof (buffer_is_irrelevant E s buf Hs) as B. pose proof (buffer_is_irrelevant E' (map r s) buf' Hs') as B'.
  rewrite H in B'. destruct (demangle E s) as [t|e| |]; try contradiction; cbn [renamed] in B'.
  - destruct B as [B1 B2], B' as [B1' B2']. split; [congruence|]. exists t. auto.
  - split; [congruence|]. exists []. cbn [map].
    destruct (failure_empties_buffer E s buf Hs) as [_ F]. destruct (failure_empties_buffer E' (map r s) buf' Hs') as [_ F'].
    rewrite (F _ B), (F' _ B'). auto.
Qed.
Print Assumptions wide_characters_are_opaque_into.

(** Two machines whose Unicode tables agree on the characters of the input give the same
    outcome: no other character's class is ever asked for. *)
Theorem only_own_classes_matter : forall (E E' : env) (s : str), rust_str s -> e_flags E' = e_flags E ->
  (forall c, In c s -> (128 <= c)%N -> e_alnum E' c = e_alnum E c) -> demangle E' s = demangle E s.
Proof.
  intros E E' s Hs Hf Hc. assert (Hr : renaming E E' s (fun c => c)).
  { constructor; auto. intros c Hin Hl. unfold rust_str in Hs. rewrite Forall_forall in Hs. auto. }
  pose proof (wide_characters_are_opaque E E' s _ Hs Hf Hr) as H. rewrite map_id in H. rewrite H.
  destruct (demangle E s) as [t|e| |]; cbn [renamed]; rewrite ?map_id; reflexivity.
Qed.
Print Assumptions only_own_classes_matter.

(** For an ASCII input the Unicode tables do not matter at all. *)
Theorem ascii_needs_no_tables : forall (E E' : env) (s : str), ascii_str s -> e_flags E' = e_flags E -> demangle E' s = demangle E s.
Proof.
  intros E E' s Ha Hf. assert (Hs : rust_str s).
  { eapply Forall_impl; [|exact Ha]. intros c Hc. unfold scalar. apply orb_true_intro. left. apply N.ltb_lt. cbv beta in Hc. lia. }
  apply only_own_classes_matter; [assumption|assumption|]. intros c Hin Hl. exfalso. unfold ascii_str in Ha. rewrite Forall_forall in Ha.
  specialize (Ha c Hin). cbv beta in Ha. lia.
Qed.
Print Assumptions ascii_needs_no_tables.

(** ** The hypotheses are met, and each of them is needed *)

(** A machine for which the characters beyond U+00FF that satisfy [p] are alphanumeric. *)
Definition classes (p : N -> bool) : env :=
  {| e_flags := 0; e_alnum := p; e_grow := whole (fun cap _ => N.max 8 (2 * cap)); e_nodes := max_nodes; e_out := out_limit |}.
(** U+0416 and U+042F, two letters of two UTF-8 bytes each; the renaming exchanges them. *)
Definition zhe : N := 0x416.
Definition ya : N := 0x42F.
Definition exchange (c : N) : N := if (c =? zhe)%N then ya else if (c =? ya)%N then zhe else c.
(** A pointer parameter whose class name uses both, and a reference to the third name. *)
Definition two_letters : str := L "?f@" ++ [zhe] ++ L "@" ++ [ya] ++ L "@@YAXPAV2@@Z".
Example opaque_hyps :
  rust_str two_letters /\ renaming (env_of 0) (env_of 0) two_letters exchange /\
  demangle (env_of 0) two_letters = Ok (L "void __cdecl " ++ [ya] ++ L "::" ++ [zhe] ++ L "::f(class " ++ [ya] ++ L " *)") /\
  demangle (env_of 0) (map exchange two_letters) = Ok (L "void __cdecl " ++ [zhe] ++ L "::" ++ [ya] ++ L "::f(class " ++ [zhe] ++ L " *)").
Proof.
  split; [repeat constructor|]. split; [|split; vm_compute; reflexivity]. constructor.
  - intros c Hc. unfold exchange, zhe, ya. destruct (N.eqb_spec c 0x416); [lia|]. destruct (N.eqb_spec c 0x42F); [lia|reflexivity].
  - intros c Hin Hc. cbn in Hin. repeat (destruct Hin as [<-|Hin]; [try lia; vm_compute; repeat split; discriminate|]). destruct Hin.
  - intros a b _ _. unfold exchange. destruct (N.eqb_spec a zhe), (N.eqb_spec b zhe), (N.eqb_spec a ya), (N.eqb_spec b ya); congruence.
  - reflexivity.
Qed.
(** Identifying two characters changes the verdict: the third name is no longer a new one. *)
Example distinctness_needed : demangle (env_of 0) (map (fun c => if (c =? ya)%N then zhe else c) two_letters) = Err InvalidBackRef.
Proof. vm_compute. reflexivity. Qed.
(** The class of a character of the input shows: a space is written behind a letter only. *)
Example class_needed :
  demangle (classes (fun _ => true)) (L "?x@@3PAV" ++ [zhe] ++ L "@@A") = Ok (L "class " ++ [zhe] ++ L " *x") /\
  demangle (classes (fun _ => false)) (L "?x@@3PAV" ++ [zhe] ++ L "@@A") = Ok (L "class " ++ [zhe] ++ L "*x").
Proof. split; vm_compute; reflexivity. Qed.
(** Characters from U+0080 to U+00FF are not opaque: in a string literal they stand for bytes. *)
Example bytes_needed :
  demangle (env_of 0) (L "??_C@_01ABCD@" ++ [0xE9%N] ++ L "?$AA@") = Ok (List.concat [[34%N]; L "\xE9"; [34%N]]) /\
  demangle (env_of 0) (L "??_C@_01ABCD@" ++ [zhe] ++ L "?$AA@") = Err InvalidCharLiteral.
Proof. split; vm_compute; reflexivity. Qed.
(** The UTF-8 length counts towards the output limit (here a limit of eight bytes). *)
Definition eight_bytes : env := {| e_flags := 0; e_alnum := fun _ => true; e_grow := whole (fun _ n => n); e_nodes := max_nodes; e_out := 8 |}.
Example length_needed :
  demangle_with eight_bytes (L "?" ++ [zhe] ++ L "@@3HA") = Ok (L "int " ++ [zhe]) /\
  demangle_with eight_bytes (L "?" ++ [0x1F600%N] ++ L "@@3HA") = Err (Io OutOfMemory).
Proof. split; vm_compute; reflexivity. Qed.
