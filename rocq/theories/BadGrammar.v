(** Specification: texts that look like symbols up to a defect.

    [bad_N G t e] says that [t], met where a phrase of kind [N] is expected while the
    back-reference tables are [G], is well-formed (in the sense of [Grammar]) up to its last
    phrase, and that this phrase is defective in a way that has to be reported as [e].  The
    defects: a digit that refers to a name or parameter type that has not been seen, an array
    without dimensions or with a negative one, an array whose qualifiers are those of a member,
    a type or scope that is an instantiation of something that is not a name, a constructor or
    destructor outside any scope, and a conversion operator without a result type. *)
From Verif Require Import Syntax Show Number Grammar.

Section Bad.
  Variable E : env.

  (** A reference to a name that is not there. *)
  Definition bad_ref (G : tab) (t : str) (e : error) : Prop :=
    exists i, i < 10 /\ nth_error (fst G) i = None /\ t = [digit_char i] /\ e = InvalidBackRef.

  Inductive bad_piece : tab -> str -> error -> Prop :=
  | bpc_ref G t e : bad_ref G t e -> bad_piece G t e
  | bpc_template G t e : bad_template t e -> bad_piece G t e
  | bpc_local G n v t e : scope_number n v -> bad_symbol G t e -> bad_piece G (L "?" ++ n ++ L "?" ++ t) e

  with bad_chain : tab -> str -> error -> Prop :=
  | bch_here G t e : bad_piece G t e -> bad_chain G t e
  | bch_later G t x G1 t' e : piece E G t x G1 -> bad_chain G1 t' e -> bad_chain G (t ++ t') e

  with bad_tname : tab -> str -> error -> Prop :=
  | btn_ref G t e : bad_ref G t e -> bad_tname G t e
  | btn_template G t e : bad_template t e -> bad_tname G t e

  with bad_qname : tab -> str -> error -> Prop :=
  | bqn_name G t e : bad_tname G t e -> bad_qname G t e
  | bqn_scope G t x G1 t' e : tname E G t x G1 -> bad_chain G1 t' e -> bad_qname G (t ++ t') e

  (** Inside a template instantiation the tables are those of the instantiation: they start empty. *)
  with bad_inst : str -> error -> Prop :=
  | bti_ref i : i < 10 -> bad_inst (L "?$" ++ [digit_char i]) InvalidBackRef
  | bti_args b i G1 a e : ubase empty_tab b i G1 -> bad_targs G1 a e -> bad_inst (L "?$" ++ b ++ a) e

  with bad_template : str -> error -> Prop :=
  | btp_inst t e : bad_inst t e -> bad_template t e
  | btp_unnamed b i G1 a xs G2 : (forall x, i <> IText x) -> ubase empty_tab b i G1 -> targs E G1 a xs G2 ->
      bad_template (L "?$" ++ b ++ a) InvalidTemplateInstantiationName

  with bad_targs : tab -> str -> error -> Prop :=
  | bta_here G t e : bad_targ G t e -> bad_targs G t e
  | bta_sep G s t e : In s targ_separators -> bad_targs G t e -> bad_targs G (s ++ t) e
  | bta_later G t x G1 t' e : targ E G t x G1 -> bad_targs G1 t' e -> bad_targs G (t ++ t') e

  with bad_targ : tab -> str -> error -> Prop :=
  | btg_type G t e : bad_body G t e -> bad_targ G t e
  | btg_typeb G t e : bad_body G t e -> bad_targ G (L "$$B" ++ t) e
  | btg_typec m c v G t e : bad_body G t e -> bad_targ G (L "$$C" ++ cv_code m c v :: t) e
  | btg_alias G t e : bad_qname G t e -> bad_targ G (L "$$Y" ++ t) e
  | btg_auto G t e : bad_body G t e -> bad_targ G (L "$M" ++ t) e
  | btg_auto_pointer G tt y G1 t e : body E G tt y G1 -> bad_symbol G1 t e -> bad_targ G (L "$M" ++ tt ++ L "1" ++ t) e
  | btg_pointer m G t e : In m [L "$1"; L "$H"; L "$I"; L "$J"] -> bad_symbol G t e -> bad_targ G (m ++ t) e
  | btg_reference G t e : bad_symbol G t e -> bad_targ G (L "$E" ++ t) e

  with bad_body : tab -> str -> error -> Prop :=
  | bbo_tag G k t e : bad_qname G t e -> bad_body G (tag_code k ++ t) e
  | bbo_pointer G pt q a p r u c v t e : pointer_code pt q a -> bad_body G t e ->
      bad_body G (pt ++ ext_code p r u ++ cv_code false c v :: t) e
  | bbo_fn_pointer G pt q a t e : pointer_code pt q a -> bad_fn false G t e -> bad_body G (pt ++ L "6" ++ t) e
  | bbo_member_class G pt q p r u c v t e : pointer_code pt q APointer -> bad_qname G t e ->
      bad_body G (pt ++ ext_code p r u ++ [cv_code true c v] ++ t) e
  | bbo_member_target G pt q p r u c v t n G1 t' e : pointer_code pt q APointer -> qname E G t n G1 -> bad_body G1 t' e ->
      bad_body G (pt ++ ext_code p r u ++ [cv_code true c v] ++ t ++ t') e
  | bbo_member_fn_class G pt q t e : pointer_code pt q APointer -> bad_qname G t e -> bad_body G (pt ++ L "8" ++ t) e
  | bbo_member_fn_target G pt q t n G1 t' e : pointer_code pt q APointer -> qname E G t n G1 -> bad_fn true G1 t' e ->
      bad_body G (pt ++ L "8" ++ t ++ t') e
  | bbo_rank G rt v neg : signed_text rt v neg -> neg = true \/ v = 0%N -> bad_body G (L "Y" ++ rt) InvalidArrayType
  | bbo_dim G rt r ds dt t v : num_text rt r -> (N.of_nat (length ds) < r)%N -> dims dt ds -> signed_text t v true ->
      bad_body G (L "Y" ++ rt ++ dt ++ t) InvalidArrayType
  | bbo_member_quals G rt ds dt c v : num_text rt (N.of_nat (length ds)) -> ds <> [] -> dims dt ds ->
      bad_body G (L "Y" ++ rt ++ dt ++ L "$$C" ++ [cv_code true c v]) InvalidArrayType
  | bbo_element G rt ds dt t e : num_text rt (N.of_nat (length ds)) -> ds <> [] -> dims dt ds -> bad_body G t e ->
      bad_body G (L "Y" ++ rt ++ dt ++ t) e
  | bbo_element_cv G rt ds dt c v t e : num_text rt (N.of_nat (length ds)) -> ds <> [] -> dims dt ds -> bad_body G t e ->
      bad_body G (L "Y" ++ rt ++ dt ++ L "$$C" ++ [cv_code false c v] ++ t) e
  | bbo_fn G t e : bad_fn false G t e -> bad_body G (L "$$A6" ++ t) e
  | bbo_member_fn G t e : bad_fn true G t e -> bad_body G (L "$$A8@@" ++ t) e
  | bbo_custom G t e : bad_tname G t e -> bad_body G (L "?" ++ t) e

  with bad_rett : tab -> str -> error -> Prop :=
  | bre_plain G t e : bad_body G t e -> first_is_not "?"%char t -> bad_rett G t e
  | bre_quals m c v G t e : bad_body G t e -> bad_rett G (L "?" ++ [cv_code m c v] ++ t) e

  with bad_params : tab -> str -> error -> Prop :=
  | bps_ref G i : i < 10 -> nth_error (snd G) i = None -> bad_params G [digit_char i] InvalidFunctionParameterList
  | bps_here G t e : bad_body G t e -> bad_params G t e
  | bps_later G t y G1 t' e : param E G t y G1 -> bad_params G1 t' e -> bad_params G (t ++ t') e

  with bad_fn : bool -> tab -> str -> error -> Prop :=
  | bfn_result this G tt q rq l cc t e : this_code this tt q rq -> cc_code l cc -> bad_rett G t e -> bad_fn this G (tt ++ [l] ++ t) e
  | bfn_params this G tt q rq l cc rt r G1 t e : this_code this tt q rq -> cc_code l cc -> rett E G rt r G1 ->
      bad_params G1 t e -> first_is_not "X"%char t -> bad_fn this G (tt ++ [l] ++ rt ++ t) e

  with bad_usym : tab -> str -> error -> Prop :=
  | bus_ref G t e : bad_ref G t e -> bad_usym G t e
  | bus_template G t e : bad_inst t e -> bad_usym G t e

  with bad_variable : tab -> str -> error -> Prop :=
  | bva_type G s a t e : storage_code s a -> bad_body G t e -> bad_variable G ([s] ++ t) e
  | bva_class G s a t q k n y G1 p r u m c v t' e :
      storage_code s a -> body E G t (TPtr q k (Some n) y) G1 -> bad_qname G1 t' e ->
      bad_variable G ([s] ++ t ++ ext_code p r u ++ [cv_code m c v] ++ t') e

  with bad_function : tab -> str -> error -> Prop :=
  | bfu_typed x G ct c a this t e : class_code x ct c a this -> bad_fn this G t e -> bad_function G (opt x (L "$$J0") ++ ct ++ t) e

  with bad_symbol : tab -> str -> error -> Prop :=
  | bsy_name G t e : bad_usym G t e -> bad_symbol G (L "?" ++ t) e
  | bsy_scope G t i G1 t' e : usym E G t i G1 -> bad_chain G1 t' e -> bad_symbol G (L "?" ++ t ++ t') e
  | bsy_structor G t d a G1 : usym E G t (IStructor d a) G1 -> bad_symbol G (L "?" ++ t ++ L "@") InvalidFullyQualifiedSymbolName
  | bsy_variable G t i G1 c ss G2 r x t' e : usym E G t i G1 -> chain E G1 c ss G2 -> id_text E i ss r x -> bad_variable G2 t' e ->
      bad_symbol G (L "?" ++ t ++ c ++ t') e
  | bsy_function G t i G1 c ss G2 r x t' e : usym E G t i G1 -> chain E G1 c ss G2 -> id_text E i ss r x -> bad_function G2 t' e ->
      bad_symbol G (L "?" ++ t ++ c ++ t') e
  | bsy_conv_variable G t a0 G1 c ss G2 v a y G3 : usym E G t (IConv a0) G1 -> chain E G1 c ss G2 -> variable E G2 v a y G3 ->
      bad_symbol G (L "?" ++ t ++ c ++ v) InvalidDeclarator
  | bsy_conv_function G t a0 G1 c ss G2 f k a sig G3 : usym E G t (IConv a0) G1 -> chain E G1 c ss G2 -> function E G2 f k a sig G3 ->
      (match sig with Some (TFun _ _ _ (Some _) _ _ _) => False | _ => True end) ->
      bad_symbol G (L "?" ++ t ++ c ++ f) InvalidDeclarator.
End Bad.

