(** C27: what follows a complete symbol.  Every accepted input is covered, not only those of
    the grammar. *)
From Verif Require Import Parser Api Lex Prefix Safety.

Definition begins_with (p s : str) : Prop := exists r, s = p ++ r.
(** Symbols other than type-info names, RTTI type descriptors, MD5 names and local static
    guards: all variables, functions, tables, string literals, ... *)
Definition ordinary (s : str) : Prop :=
  ~ begins_with (L ".") s /\ ~ begins_with (L "??_R0") s /\ ~ begins_with (L "??@") s /\
  ~ begins_with (L "??_B") s /\ ~ begins_with (L "??__J") s.

Lemma starts_begins p s : starts_with p s = true <-> begins_with p s.
Proof.
  unfold starts_with. destruct (strip_prefix p s) as [r|] eqn:H.
  - apply strip_prefix_spec in H. split; [exists r; assumption|auto].
  - split; [discriminate|]. intros (r & Hr). apply strip_prefix_spec in Hr. congruence.
Qed.
Lemma parse_accepted E s x : demangle E s = Ok x -> exists h t, parse (code_limits E) s = Ok (h, t).
Proof.
  unfold demangle, demangle_with, demangle_into_with. destruct (parse (code_limits E) s) as [[h t]|e| |]; try discriminate. eauto.
Qed.
Lemma parse_empty E h t : parse E [] = Ok (h, t) -> False.
Proof. discriminate. Qed.
Lemma parse_more E s u h t : ordinary s -> parse E s = Ok (h, t) -> parse E (s ++ u) = Ok (h, ap u t).
Proof.
  intros (H1 & H2 & H3 & H4 & H5) Hp. unfold parse in *.
  destruct (parse_stable u E 0 (S (length s)) (S (length (s ++ u))) s h t) as (p & _ & Hs).
  - rewrite app_length. lia.
  - lia.
  - intros ->. exact (parse_empty E h t Hp).
  - intros H. exfalso. apply H3, starts_begins, H.
  - intros H. exfalso. rewrite !starts_begins in H. tauto.
  - exact Hp.
  - apply Hs. exact I.
Qed.

(** C27: text after an ordinary symbol is ignored. *)
Theorem trailing_ignored : forall (E : env) (s x u : str),
  ordinary s -> demangle E s = Ok x -> demangle E (s ++ u) = Ok x.
Proof.
  intros E s x u Ho Hd. destruct (parse_accepted E s x Hd) as (h & t & Hp). rewrite <- Hd.
  unfold demangle, demangle_with, demangle_into_with. rewrite Hp, (parse_more _ _ u _ _ Ho Hp). reflexivity.
Qed.
(** The same for a caller's buffer, whatever it contained. *)
Theorem trailing_ignored_into : forall (E : env) (s u : str) (b b' : string_buf),
  ordinary s -> demangle_into E s b = (Ok tt, b') -> demangle_into E (s ++ u) b = (Ok tt, b').
Proof.
  intros E s u b b' Ho Hd. rewrite <- Hd. unfold demangle_into, demangle_into_with in *.
  destruct (parse (code_limits E) s) as [[h t]|e| |] eqn:Hp; try discriminate.
  rewrite (parse_more _ _ u _ _ Ho Hp). reflexivity.
Qed.
(** Hence of two accepted symbols one of which starts with the other, both mean the same. *)
Corollary no_longer_meaning : forall (E : env) (s x u y : str),
  ordinary s -> demangle E s = Ok x -> demangle E (s ++ u) = Ok y -> x = y.
Proof. intros E s x u y Ho Hs Hu. rewrite (trailing_ignored E s x u Ho Hs) in Hu. congruence. Qed.

(** C27: type-info names and RTTI type descriptors with anything after them are rejected. *)
Theorem typeinfo_then_text : forall (E : env) (s x u : str),
  begins_with (L ".") s -> demangle E s = Ok x -> u <> [] -> demangle E (s ++ u) = Err InvalidTypeinfoName.
Proof.
  intros E s x u Hb Hd Hu. destruct (parse_accepted E s x Hd) as (h & t & Hp).
  unfold demangle, demangle_with, demangle_into_with. unfold parse in *.
  rewrite (typeinfo_longer u (code_limits E) (S (length s)) (S (length (s ++ u))) s h t); auto. rewrite app_length. lia.
Qed.
Theorem descriptor_then_text : forall (E : env) (s x u : str),
  begins_with (L "??_R0") s -> demangle E s = Ok x -> u <> [] -> demangle E (s ++ u) = Err InvalidSpecialIntrinsic.
Proof.
  intros E s x u Hb Hd Hu. destruct (parse_accepted E s x Hd) as (h & t & Hp).
  unfold demangle, demangle_with, demangle_into_with. unfold parse in *.
  rewrite (descriptor_longer u (code_limits E) (S (length s)) (S (length (s ++ u))) s h t); auto. rewrite app_length. lia.
Qed.

(** Concrete cases: each kind is accepted, and the two exceptions are real: what follows a
    local static guard is its index, and an MD5 name can be extended. *)
Definition or_err (r : res str) : str := match r with Ok x => x | _ => L "ERR" end.
Example trailing_cases :
  demangle (env_of 0) (L "?f@@YAXXZ") = Ok (L "void __cdecl f(void)") /\ ordinary (L "?f@@YAXXZ") /\
  demangle (env_of 0) (L ".?AVx@@") = Ok (L "class x `RTTI Type Descriptor Name'") /\
  demangle (env_of 0) (L "??_R0?AVx@@@8") = Ok (L "class x `RTTI Type Descriptor'") /\
  or_err (demangle (env_of 0) (L "??_Bf@@51")) = L "f::`local static guard'{2}" /\
  or_err (demangle (env_of 0) (L "??_Bf@@5")) = L "f::`local static guard'" /\
  or_err (demangle (env_of 0) (L "??@a@")) = L "??@a@" /\
  or_err (demangle (env_of 0) (L "??@a@??_R4@")) = L "??@a@??_R4@".
Proof.
  repeat split; try (vm_compute; reflexivity); intros (r & Hr); vm_compute in Hr; discriminate.
Qed.
Print Assumptions trailing_ignored.
Print Assumptions typeinfo_then_text.
Print Assumptions descriptor_then_text.
Print Assumptions trailing_ignored_into.
Print Assumptions no_longer_meaning.
