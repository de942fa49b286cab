(** The round trip: template arguments.  Proof infrastructure for [Trip]. *)
From Verif Require Import Parser Utf8 Show Den Emit Grammar Lex Step Number Pend ReadAt Literal Round RoundNames RoundTypes RoundBody.

Ltac not_heads := let r := fresh in intros r; repeat (constructor; [reflexivity|]); constructor.

Lemma eat_first_at p l r t sg f n : (forall q, In q l -> strip_prefix q (p ++ t) = None) ->
  eat_first (l ++ p :: r) (at_ (p ++ t) sg f n) = Ok (Some p, at_ t sg f n).
Proof.
  induction l as [|q l IH]; intros H; cbn [app eat_first].
  - rewrite (bind_eq _ _ _ _ _ (eats_yes p t _ _ _)). reflexivity.
  - rewrite (bind_eq _ _ _ _ _ (eats_no q (p ++ t) _ _ _ (H q (or_introl eq_refl)))). apply IH. intros q' Hq. apply H. right. exact Hq.
Qed.

Section Args.
  Variable E : env.
  Variable B : nat.
  Notation DT w := (dty E (cnt w) w).
  Notation DS w := (dstr E (cnt w) w).
  Notation okerr := (okerr E B).
  Notation ctx := (ctx E).
  Notation K := (knot_of E).
  Notation rd := (rd E B).
  Notation fin := (fin E).
  Notation P_tname := (P_tname E B).
  Notation P_qname := (P_qname E B).
  Notation P_targ := (P_targ E B).
  Notation P_symbol := (P_symbol E B).
  Notation P_body := (P_body E B).
  Notation P_mtype := (P_mtype E B).

  Lemma seps (P : str -> Prop) : P (L "$S") -> P (L "$$V") -> P (L "$$$V") -> P (L "$$Z") -> forall p, In p targ_separators -> P p.
  Proof. intros H1 H2 H3 H4 p Hp. cbn in Hp. destruct Hp as [<-|[<-|[<-|[<-|[]]]]]; assumption. Qed.
  (** The argument starts with a marker. *)
  Lemma targ_marked m t : (forall r, starts (ch "@") (m ++ r) = false /\ forall p, In p targ_separators -> strip_prefix p (m ++ r) = None) ->
    1 <= length m -> 1 <= length (m ++ t) /\ forall r, starts (ch "@") ((m ++ t) ++ r) = false /\ forall p, In p targ_separators -> strip_prefix p ((m ++ t) ++ r) = None.
  Proof. intros H Hm. split; [len|]. intros r. rewrite <- app_assoc. apply H. Qed.
  Ltac marked := apply targ_marked; [intros ?r; split; [reflexivity|apply seps; reflexivity]|cbn; lia].

  (** Nothing in front of a type matches a body. *)
  Lemma body_skips t : (exists p r, t = p ++ r /\ In p heads) -> forall r,
    strip_prefix (L "$M") (t ++ r) = None /\ strip_prefix (L "$$Y") (t ++ r) = None /\ strip_prefix (L "$$B") (t ++ r) = None /\
    strip_prefix (L "$$C") (t ++ r) = None /\ (forall p, In p [L "$1"; L "$H"; L "$I"; L "$J"] -> strip_prefix p (t ++ r) = None) /\
    starts_with (L "$E?") (t ++ r) = false /\ (forall p, In p [L "$F"; L "$G"] -> strip_prefix p (t ++ r) = None) /\
    strip_prefix (L "$0") (t ++ r) = None.
  Proof.
    intros Hh r. pose proof (fun p H => heads_strip p t Hh H r) as Hs.
    split; [apply Hs; not_heads|]. split; [apply Hs; not_heads|]. split; [apply Hs; not_heads|]. split; [apply Hs; not_heads|].
    split; [intros p [<-|[<-|[<-|[<-|[]]]]]; apply Hs; not_heads|]. split; [unfold starts_with; rewrite Hs; [reflexivity|not_heads]|].
    split; [intros p [<-|[<-|[]]]; apply Hs; not_heads|]. apply Hs; not_heads.
  Qed.
  Lemma fin_show w sg M rest G y : length w = length sg -> forall h s,
    fin w sg M rest G (fun w' sg' h => pend E (length sg) w' sg' h y) h s -> fin w sg M rest G (fun w' _ h => DS w' KAny h (show E y)) h s.
  Proof.
    intros Hl h s H. apply fin_settle_type in H; [|exact Hl]. eapply fin_mono; [exact H|apply ext_refl|apply ext_refl|lia|].
    intros w' sg' _ _ _ R. apply DT_show. exact R.
  Qed.
  Lemma c_tg_type G t y G' : P_body G t y G' -> P_targ G t (show E y) G'.
  Proof.
    intros H. pose proof H as [Hh _]. split.
    - split; [eapply body_len; exact Hh|]. intros r. split; [apply heads_at; exact Hh|]. apply seps; (apply heads_strip; [exact Hh|not_heads]).
    - intros fu rest w sg f n Hfu Hc HB. destruct (body_skips t Hh rest) as (H1 & H2 & H3 & H4 & H5 & H6 & H7 & H8). unfold template_arg.
      eapply wp_step; [apply eats_no; exact H1|]. cbv iota. eapply wp_step; [reflexivity|].
      eapply wp_step; [apply eats_no; exact H2|]. cbv iota. eapply wp_step; [apply eats_no; exact H3|]. cbv iota.
      eapply wp_step; [apply eats_no; exact H4|]. cbv iota. eapply wp_step; [apply eat_first_none; exact H5|]. cbv iota.
      eapply wp_step; [apply text_at|]. rewrite H6. eapply wp_step; [apply eat_first_none; exact H7|]. cbv iota.
      eapply wp_step; [apply eats_no; exact H8|]. cbv iota.
      eapply wp_mono; [eapply (drop_at _ _ _ _ _ _ H); eassumption|]. apply fin_show. eapply ctx_len; exact Hc.
  Qed.
  Lemma c_tg_typeb G t y G' : P_body G t y G' -> P_targ G (L "$$B" ++ t) (show E y) G'.
  Proof.
    intros H. split; [marked|]. intros fu rest w sg f n Hfu Hc HB. unfold template_arg. rewrite <- app_assoc.
    eapply wp_step; [apply eats_no; reflexivity|]. cbv iota. eapply wp_step; [reflexivity|].
    eapply wp_step; [apply eats_no; reflexivity|]. cbv iota. eapply wp_step; [apply eats_yes|]. cbv iota.
    eapply wp_mono; [eapply (drop_at _ _ _ _ _ _ H); [len|exact Hc|len]|]. intros h s Hf. apply fin_show in Hf; [|eapply ctx_len; exact Hc].
    eapply fin_mono; [exact Hf|apply ext_refl|apply ext_refl|len|auto].
  Qed.
  Lemma c_tg_typec m G t y G' : P_mtype m G t y G' -> P_targ G (L "$$C" ++ t) (show E y) G'.
  Proof.
    intros [_ H]. split; [marked|]. intros fu rest w sg f n Hfu Hc HB. unfold template_arg. rewrite <- app_assoc.
    eapply wp_step; [apply eats_no; reflexivity|]. cbv iota. eapply wp_step; [reflexivity|].
    eapply wp_step; [apply eats_no; reflexivity|]. cbv iota. eapply wp_step; [apply eats_no; reflexivity|]. cbv iota.
    eapply wp_step; [apply eats_yes|]. cbv iota.
    eapply wp_mono; [eapply H; [len|exact Hc|len]|]. intros h s Hf. apply fin_show in Hf; [|eapply ctx_len; exact Hc].
    eapply fin_mono; [exact Hf|apply ext_refl|apply ext_refl|len|auto].
  Qed.
  Lemma c_tg_alias G t x G' : P_qname G t x G' -> P_targ G (L "$$Y" ++ t) (qualified x) G'.
  Proof.
    intros [_ H]. split; [marked|]. intros fu rest w sg f n Hfu Hc HB. unfold template_arg. rewrite <- app_assoc.
    eapply wp_step; [apply eats_no; reflexivity|]. cbv iota. eapply wp_step; [reflexivity|].
    eapply wp_step; [apply eats_yes|]. cbv iota.
    eapply wp_mono; [eapply H; [len|exact Hc|len]|]. intros h s Hf.
    eapply fin_mono; [exact Hf|apply ext_refl|apply ext_refl|len|]. intros w' sg' _ _ _. apply DS_any.
  Qed.
  (** The last node of an argument. *)
  Lemma last_at nd x w0 sg0 M G rest w sg f n : ctx w sg f n G -> ext w0 w -> ext sg0 sg -> length sg + 1 <= M -> M <= B ->
    dsh E w nd x -> wp okerr (intern E nd) (fin w0 sg0 M rest G (fun w' sg' h => DS w' KAny h x)) (at_ rest sg f n).
  Proof.
    intros Hc Hw Hs HM HB Hd. eapply wp_new_known; [exact Hc|lia|]. intros C' M'.
    eapply fin_intro; [eapply ext_trans; [exact Hw|apply ext_app]|eapply ext_trans; [exact Hs|apply ext_app]|rewrite app_length; cbn; lia|exact C'|].
    eapply more_DS; [exact M'|reflexivity|exact Hd].
  Qed.
  Lemma signed_len t v neg : signed_text t v neg -> 1 <= length t.
  Proof. intros (u & H & ->). apply num_len in H. destruct neg; cbn; len. Qed.
  Lemma c_tg_int G t v neg : signed_text t v neg -> P_targ G (L "$0" ++ t) (opt neg (L "-") ++ dec_N v) G.
  Proof.
    intros H. split; [marked|]. intros fu rest w sg f n Hfu Hc HB. unfold template_arg. rewrite <- app_assoc.
    eapply wp_step; [apply eats_no; reflexivity|]. cbv iota. eapply wp_step; [reflexivity|].
    do 3 (eapply wp_step; [apply eats_no; reflexivity|]; cbv iota).
    eapply wp_step; [apply eat_first_none; intros p [<-|[<-|[<-|[<-|[]]]]]; reflexivity|]. cbv iota.
    eapply wp_step; [apply text_at|]. change (starts_with (L "$E?") (L "$0" ++ t ++ rest)) with false. cbv iota.
    eapply wp_step; [apply eat_first_none; intros p [<-|[<-|[]]]; reflexivity|]. cbv iota.
    eapply wp_step; [apply eats_yes|]. cbv iota. eapply wp_step; [apply number_at; exact H|]. cbv iota beta.
    eapply last_at; [exact Hc|apply ext_refl|apply ext_refl|len|len|reflexivity].
  Qed.
  (** Skipping the type of an automatically typed argument. *)
  Lemma auto_at tt y G G1 (k : unit -> M handle) fu rest w sg f n (Q : handle -> st -> Prop) : P_body G tt y G1 -> length tt <= fu -> ctx w sg f n G ->
    length sg + 2 * length tt <= B ->
    (forall w' sg' f' n', ext w w' -> ext sg sg' -> length sg' <= length sg + 2 * length tt -> ctx w' sg' f' n' G1 -> wp okerr (k Datatypes.tt) Q (at_ rest sg' f' n')) ->
    wp okerr ((k_type (K fu) QDrop ;;; ret Datatypes.tt) ;;; k Datatypes.tt) Q (at_ (tt ++ rest) sg f n).
  Proof.
    intros H Hfu Hc HB Hk. apply wp_bind. apply wp_bind. eapply wp_mono; [eapply (drop_known _ _ _ _ _ _ H); eassumption|].
    intros h s (w1 & sg1 & f1 & n1 & -> & X1 & S1 & L1 & C1 & R1). apply wp_ret. apply (Hk w1); auto. lia.
  Qed.
  Lemma c_tg_auto_int G tt y G1 t v neg : P_body G tt y G1 -> signed_text t v neg ->
      P_targ G (L "$M" ++ tt ++ L "0" ++ t) (opt neg (L "-") ++ dec_N v) G1.
  Proof.
    intros Hb H. split; [marked|]. intros fu rest w sg f n Hfu Hc HB. unfold template_arg. rewrite <- !app_assoc.
    eapply wp_step; [apply eats_yes|]. cbv iota.
    match goal with |- wp _ (_ ;;; ?k) _ _ => eapply (auto_at tt y G G1 (fun _ => k)); [exact Hb|len|exact Hc|len|] end.
    intros w1 sg1 f1 n1 X1 S1 L1 C1. cbv beta.
    do 3 (eapply wp_step; [apply eats_no; reflexivity|]; cbv iota).
    eapply wp_step; [apply eat_first_none; intros p [<-|[<-|[<-|[<-|[]]]]]; reflexivity|]. cbv iota.
    eapply wp_step; [apply text_at|]. change (starts_with (L "$E?") (L "0" ++ t ++ rest)) with false. cbv iota.
    eapply wp_step; [apply eat_first_none; intros p [<-|[<-|[]]]; reflexivity|]. cbv iota.
    eapply wp_step; [apply eats_yes|]. cbv iota. eapply wp_step; [apply number_at; exact H|]. cbv iota beta.
    eapply last_at; [exact C1|exact X1|exact S1|len|len|reflexivity].
  Qed.
  (** The symbol of an argument. *)
  Lemma template_symbol_at G t x id G' fu rest w sg f n : fits E id -> symbol_at E B rest G t x id G' -> length t <= fu -> ctx w sg f n G ->
    length sg + 2 * length t + 1 <= B ->
    wp okerr (template_symbol E (K fu)) (fin w sg (length sg + 2 * length t + 1) rest (remember id G')
      (fun w' _ o => exists h, o = Some h /\ DS w' KSym h x)) (at_ (t ++ rest) sg f n).
  Proof.
    intros HT [(r0 & Ht) H] Hfu Hc HB. unfold template_symbol. eapply wp_step; [apply text_at|].
    assert (H1 : starts_with (L "?") (t ++ rest) = true) by (rewrite Ht; reflexivity). rewrite H1.
    apply wp_bind. eapply wp_mono; [eapply H; [lia|exact Hc|lia]|].
    intros h s (w1 & sg1 & f1 & n1 & -> & X1 & S1 & L1 & C1 & R1 & nd & qn & c & hs & uid & A1 & A2 & A3 & A4 & A5 & A6).
    apply wp_bind. eapply wp_resolve; [eapply ctx_get; [exact C1|exact A1]|exact A2|]. rewrite A3.
    unfold unqualified_identifier. apply wp_bind. apply wp_bind. eapply wp_resolve; [eapply ctx_get; [exact C1|exact A4]|reflexivity|].
    apply wp_bind. eapply wp_resolve; [eapply ctx_get; [exact C1|exact A5]|reflexivity|].
    destruct (DS_get _ _ _ _ _ A6) as (idn & B1 & B2). rewrite rev_app_distr. cbn [rev app].
    apply wp_bind. eapply wp_resolve; [eapply ctx_get; [exact C1|exact B1]|reflexivity|].
    unfold hkind in B2. rewrite B2. apply wp_ret. eapply wp_step; [reflexivity|]. apply wp_bind.
    eapply wp_mono; [eapply memorize_id_at; [exact HT|exact C1|exact A6|lia]|].
    intros [] s (w2 & sg2 & f2 & n2 & -> & X2 & S2 & L2 & C2 & _). apply wp_ret.
    eapply fin_intro; [eapply ext_trans; eauto|eapply ext_trans; eauto|lia|exact C2|].
    exists h. split; [reflexivity|]. eapply DS_sub; [apply ext_sub; exact X2|exact R1].
  Qed.

  Lemma c_tg_pointer G t x id G' : fits E id -> P_symbol G t x id G' -> P_targ G (L "$1" ++ t) (L "&" ++ x) (remember id G').
  Proof.
    intros HT H. split; [marked|]. intros fu rest w sg f n Hfu Hc HB. unfold template_arg. rewrite <- app_assoc.
    eapply wp_step; [apply eats_no; reflexivity|]. cbv iota. eapply wp_step; [reflexivity|].
    do 3 (eapply wp_step; [apply eats_no; reflexivity|]; cbv iota).
    eapply wp_step; [apply (eat_first_at (L "$1") []); intros ? []|]. cbv iota. apply wp_bind.
    eapply wp_mono; [eapply template_symbol_at; [exact HT|apply symbol_there; exact H|len|exact Hc|len]|].
    intros o s (w1 & sg1 & f1 & n1 & -> & X1 & S1 & L1 & C1 & h & -> & R1). eapply wp_step; [reflexivity|].
    eapply last_at; [exact C1|exact X1|exact S1|len|len|]. exists x. auto.
  Qed.
  Lemma c_tg_auto_pointer G tt y G1 t x id G' : fits E id -> P_body G tt y G1 -> P_symbol G1 t x id G' ->
      P_targ G (L "$M" ++ tt ++ L "1" ++ t) (L "&" ++ x) (remember id G').
  Proof.
    intros HT Hb H. split; [marked|]. intros fu rest w sg f n Hfu Hc HB. unfold template_arg. rewrite <- !app_assoc.
    eapply wp_step; [apply eats_yes|]. cbv iota.
    match goal with |- wp _ (_ ;;; ?k) _ _ => eapply (auto_at tt y G G1 (fun _ => k)); [exact Hb|len|exact Hc|len|] end.
    intros w1 sg1 f1 n1 X1 S1 L1 C1. cbv beta.
    do 3 (eapply wp_step; [apply eats_no; reflexivity|]; cbv iota).
    eapply wp_step; [apply (eat_first_at (L "1") []); intros ? []|]. cbv iota. apply wp_bind.
    eapply wp_mono; [eapply template_symbol_at; [exact HT|apply symbol_there; exact H|len|exact C1|len]|].
    intros o s (w2 & sg2 & f2 & n2 & -> & X2 & S2 & L2 & C2 & h & -> & R2). eapply wp_step; [reflexivity|].
    eapply last_at; [exact C2|eapply ext_trans; eauto|eapply ext_trans; eauto|len|len|]. exists x. auto.
  Qed.
  Lemma c_tg_reference G t x id G' : P_symbol G t x id G' -> P_targ G (L "$E" ++ t) x G'.
  Proof.
    intros [(r0 & Ht) H]. split; [marked|]. intros fu rest w sg f n Hfu Hc HB. unfold template_arg. rewrite <- app_assoc.
    eapply wp_step; [apply eats_no; reflexivity|]. cbv iota. eapply wp_step; [reflexivity|].
    do 3 (eapply wp_step; [apply eats_no; reflexivity|]; cbv iota).
    eapply wp_step; [apply eat_first_none; intros p [<-|[<-|[<-|[<-|[]]]]]; reflexivity|]. cbv iota.
    eapply wp_step; [apply text_at|]. assert (H1 : starts_with (L "$E?") (L "$E" ++ t ++ rest) = true) by (rewrite Ht; reflexivity). rewrite H1.
    eapply wp_step; [apply expects_yes|]. apply wp_bind. eapply wp_mono; [eapply H; [len|exact Hc|len]|].
    intros h s (w1 & sg1 & f1 & n1 & -> & X1 & S1 & L1 & C1 & R1 & _).
    eapply last_at; [exact C1|exact X1|exact S1|len|len|exact R1].
  Qed.
  Lemma signed_num_len t z : signed_number t z -> 1 <= length t.
  Proof. intros (v & neg & H & _). eapply signed_len; exact H. Qed.
  Lemma offsets_at t zs rest sg f n : offsets t zs -> read_offsets (length zs) (at_ (t ++ rest) sg f n) = Ok (zs, at_ rest sg f n).
  Proof.
    intros H. induction H as [|t z t' zs Hz H IH]; [reflexivity|]. cbn [length read_offsets]. rewrite <- app_assoc.
    rewrite (bind_eq _ _ _ _ _ (signed_at _ _ _ _ _ _ Hz)). rewrite (bind_eq _ _ _ _ _ IH). reflexivity.
  Qed.
  Lemma offsets_len t zs : offsets t zs -> length zs <= length t.
  Proof. induction 1; [cbn; lia|]. apply signed_num_len in H. len. Qed.
  Lemma member_at m G t x id G' t1 z zs : fits E id -> inheritance_count m = Some (length (z :: zs)) -> length m = 2 ->
    (forall r, starts (ch "@") (m ++ r) = false /\ forall p, In p targ_separators -> strip_prefix p (m ++ r) = None) ->
    (forall r, strip_prefix (L "$M") (m ++ r) = None /\ strip_prefix (L "$$Y") (m ++ r) = None /\ strip_prefix (L "$$B") (m ++ r) = None /\
      strip_prefix (L "$$C") (m ++ r) = None) ->
    (forall r sg f n, eat_first [L "$1"; L "$H"; L "$I"; L "$J"] (at_ (m ++ r) sg f n) = Ok (Some m, at_ r sg f n)) ->
    P_symbol G t x id G' -> offsets t1 (z :: zs) ->
    P_targ G (m ++ t ++ t1) (L "{" ++ x ++ L ", " ++ join (L ", ") (map dec_Z (z :: zs)) ++ L "}") (remember id G').
  Proof.
    intros HT Hcnt Hml Hm1 Hm2 Hm3 H Ho. split; [apply targ_marked; [exact Hm1|lia]|]. pose proof (offsets_len _ _ Ho) as Hol. cbn [length] in Hol.
    intros fu rest w sg f n Hfu Hc HB. unfold template_arg. rewrite <- !app_assoc. destruct (Hm2 (t ++ t1 ++ rest)) as (M1 & M2 & M3 & M4).
    eapply wp_step; [apply eats_no; exact M1|]. cbv iota. eapply wp_step; [reflexivity|].
    eapply wp_step; [apply eats_no; exact M2|]. cbv iota. eapply wp_step; [apply eats_no; exact M3|]. cbv iota.
    eapply wp_step; [apply eats_no; exact M4|]. cbv iota. eapply wp_step; [apply Hm3|]. cbv iota. apply wp_bind.
    eapply wp_mono; [eapply template_symbol_at; [exact HT|apply symbol_there; exact H|len|exact Hc|len]|].
    intros o s (w1 & sg1 & f1 & n1 & -> & X1 & S1 & L1 & C1 & h & -> & R1). rewrite Hcnt.
    eapply wp_step; [apply offsets_at; exact Ho|].
    eapply last_at; [exact C1|exact X1|exact S1|len|len|]. cbn [dsh dshow]. exists x. auto.
  Qed.
  Ltac member_tac m := eapply (member_at m); [eassumption|reflexivity|reflexivity|intros ?r; split; [reflexivity|apply seps; reflexivity]|
     intros ?r; repeat split|intros ?r ?sg ?f ?n; cbn; rewrite ?Nat.sub_0_r; reflexivity|eassumption|].
  Lemma c_tg_member1 G t x id G' t1 z1 : fits E id -> P_symbol G t x id G' -> signed_number t1 z1 ->
      P_targ G (L "$H" ++ t ++ t1) (L "{" ++ x ++ L ", " ++ dec_Z z1 ++ L "}") (remember id G').
  Proof.
    intros HT H H1. change (dec_Z z1) with (join (L ", ") (map dec_Z [z1])). rewrite <- (app_nil_r t1).
    member_tac (L "$H"). constructor; [exact H1|constructor].
  Qed.
  Lemma c_tg_member2 G t x id G' t1 z1 t2 z2 : fits E id -> P_symbol G t x id G' -> signed_number t1 z1 -> signed_number t2 z2 ->
      P_targ G (L "$I" ++ t ++ t1 ++ t2) (L "{" ++ x ++ L ", " ++ dec_Z z1 ++ L ", " ++ dec_Z z2 ++ L "}") (remember id G').
  Proof.
    intros HT H H1 H2. rewrite <- (app_nil_r t2).
    replace (dec_Z z1 ++ L ", " ++ dec_Z z2 ++ L "}") with (join (L ", ") (map dec_Z [z1; z2]) ++ L "}") by (cbn [map join]; rewrite <- !app_assoc; reflexivity).
    member_tac (L "$I"). repeat (constructor; [eassumption|]). constructor.
  Qed.
  Lemma c_tg_member3 G t x id G' t1 z1 t2 z2 t3 z3 : fits E id -> P_symbol G t x id G' ->
      signed_number t1 z1 -> signed_number t2 z2 -> signed_number t3 z3 ->
      P_targ G (L "$J" ++ t ++ t1 ++ t2 ++ t3)
        (L "{" ++ x ++ L ", " ++ dec_Z z1 ++ L ", " ++ dec_Z z2 ++ L ", " ++ dec_Z z3 ++ L "}") (remember id G').
  Proof.
    intros HT H H1 H2 H3. rewrite <- (app_nil_r t3).
    replace (dec_Z z1 ++ L ", " ++ dec_Z z2 ++ L ", " ++ dec_Z z3 ++ L "}") with (join (L ", ") (map dec_Z [z1; z2; z3]) ++ L "}") by (cbn [map join]; rewrite <- !app_assoc; reflexivity).
    member_tac (L "$J"). repeat (constructor; [eassumption|]). constructor.
  Qed.
  Lemma data_at m G t1 z zs : data_member_count m = Some (length (z :: zs)) -> length m = 2 ->
    (forall r, starts (ch "@") (m ++ r) = false /\ forall p, In p targ_separators -> strip_prefix p (m ++ r) = None) ->
    (forall r, strip_prefix (L "$M") (m ++ r) = None /\ strip_prefix (L "$$Y") (m ++ r) = None /\ strip_prefix (L "$$B") (m ++ r) = None /\
      strip_prefix (L "$$C") (m ++ r) = None /\ (forall p, In p [L "$1"; L "$H"; L "$I"; L "$J"] -> strip_prefix p (m ++ r) = None) /\
      starts_with (L "$E?") (m ++ r) = false) ->
    (forall r sg f n, eat_first [L "$F"; L "$G"] (at_ (m ++ r) sg f n) = Ok (Some m, at_ r sg f n)) ->
    offsets t1 (z :: zs) -> P_targ G (m ++ t1) (L "{" ++ join (L ", ") (map dec_Z (z :: zs)) ++ L "}") G.
  Proof.
    intros Hcnt Hml Hm1 Hm2 Hm3 Ho. split; [apply targ_marked; [exact Hm1|lia]|]. pose proof (offsets_len _ _ Ho) as Hol. cbn [length] in Hol.
    intros fu rest w sg f n Hfu Hc HB. unfold template_arg. rewrite <- !app_assoc. destruct (Hm2 (t1 ++ rest)) as (M1 & M2 & M3 & M4 & M5 & M6).
    eapply wp_step; [apply eats_no; exact M1|]. cbv iota. eapply wp_step; [reflexivity|].
    eapply wp_step; [apply eats_no; exact M2|]. cbv iota. eapply wp_step; [apply eats_no; exact M3|]. cbv iota.
    eapply wp_step; [apply eats_no; exact M4|]. cbv iota. eapply wp_step; [apply eat_first_none; exact M5|]. cbv iota.
    eapply wp_step; [apply text_at|]. rewrite M6. eapply wp_step; [apply Hm3|]. cbv iota. rewrite Hcnt.
    eapply wp_step; [apply offsets_at; exact Ho|].
    eapply last_at; [exact Hc|apply ext_refl|apply ext_refl|len|len|]. reflexivity.
  Qed.
  Ltac data_tac m := eapply (data_at m); [reflexivity|reflexivity|intros ?r; split; [reflexivity|apply seps; reflexivity]|
     intros ?r; repeat split; intros ?p [<-|[<-|[<-|[<-|[]]]]]; reflexivity|intros ?r ?sg ?f ?n; cbn; rewrite ?Nat.sub_0_r; reflexivity|].
  Lemma c_tg_data2 G t1 z1 t2 z2 : signed_number t1 z1 -> signed_number t2 z2 ->
      P_targ G (L "$F" ++ t1 ++ t2) (L "{" ++ dec_Z z1 ++ L ", " ++ dec_Z z2 ++ L "}") G.
  Proof.
    intros H1 H2. rewrite <- (app_nil_r t2).
    replace (dec_Z z1 ++ L ", " ++ dec_Z z2 ++ L "}") with (join (L ", ") (map dec_Z [z1; z2]) ++ L "}") by (cbn [map join]; rewrite <- !app_assoc; reflexivity).
    data_tac (L "$F"). repeat (constructor; [eassumption|]). constructor.
  Qed.
  Lemma c_tg_data3 G t1 z1 t2 z2 t3 z3 : signed_number t1 z1 -> signed_number t2 z2 -> signed_number t3 z3 ->
      P_targ G (L "$G" ++ t1 ++ t2 ++ t3) (L "{" ++ dec_Z z1 ++ L ", " ++ dec_Z z2 ++ L ", " ++ dec_Z z3 ++ L "}") G.
  Proof.
    intros H1 H2 H3. rewrite <- (app_nil_r t3).
    replace (dec_Z z1 ++ L ", " ++ dec_Z z2 ++ L ", " ++ dec_Z z3 ++ L "}") with (join (L ", ") (map dec_Z [z1; z2; z3]) ++ L "}") by (cbn [map join]; rewrite <- !app_assoc; reflexivity).
    data_tac (L "$G"). repeat (constructor; [eassumption|]). constructor.
  Qed.

  (** ** Arguments without a symbol, and after an automatic type *)
  Definition arg_rest (K : knot) (auto : bool) : M handle :=
    y <- eat_str (L "$$Y") ;;
    if y then demangle_fully_qualified_type_name E K
    else
    b <- eat_str (L "$$B") ;;
    if b then k_type K QDrop
    else
    c <- eat_str (L "$$C") ;;
    if c then k_type K QMangle
    else
    m <- eat_first (if auto then [L "1"; L "H"; L "I"; L "J"] else [L "$1"; L "$H"; L "$I"; L "$J"]) ;;
    match m with
    | Some p =>
      sym <- template_symbol E K ;;
      match inheritance_count p with
      | None => fail InvalidTemplateParameterList
      | Some count =>
        offs <- read_offsets count ;;
        intern E (NTpr sym offs (Some APointer) true)
      end
    | None =>
      s <- text ;;
      if starts_with (L "$E?") s then
        expect_str (L "$E") InvalidTemplateParameterList ;;;
        sym <- k_parse K ;;
        intern E (NTpr (Some sym) [] (Some AReference) false)
      else
      d <- eat_first (if auto then [L "F"; L "G"] else [L "$F"; L "$G"]) ;;
      match d with
      | Some p =>
        match data_member_count p with
        | None => fail InvalidTemplateParameterList
        | Some count =>
          offs <- read_offsets count ;;
          intern E (NTpr None offs None true)
        end
      | None =>
        z <- eat_str (if auto then L "0" else L "$0") ;;
        if z then
          '(v, neg) <- demangle_number ;; intern E (NInt v neg)
        else k_type K QDrop
      end
    end.
  Lemma template_arg_eq K : template_arg E K =
    (auto <- eat_str (L "$M") ;; (if auto then k_type K QDrop ;;; ret tt else ret tt) ;;; arg_rest K auto).
  Proof. reflexivity. Qed.
  Definition P_auto_arg (G : tab) (t x : str) (G' : tab) : Prop :=
    rd 0 t G G' (fun fu => arg_rest (K fu) true) (fun _ w' _ h => DS w' KAny h x).
  Lemma c_tg_auto G tt y G1 t x G' : P_body G tt y G1 -> P_auto_arg G1 t x G' -> P_targ G (L "$M" ++ tt ++ t) x G'.
  Proof.
    intros Hb H. split; [marked|]. intros fu rest w sg f n Hfu Hc HB. rewrite template_arg_eq. rewrite <- !app_assoc.
    eapply wp_step; [apply eats_yes|]. cbv iota.
    eapply (auto_at tt y G G1 (fun _ => arg_rest (K fu) true)); [exact Hb|len|exact Hc|len|].
    intros w1 sg1 f1 n1 X1 S1 L1 C1. cbv beta.
    eapply wp_mono; [eapply H; [len|exact C1|len]|]. intros h s Hf.
    eapply fin_mono; [exact Hf|exact X1|exact S1|len|]. auto.
  Qed.
  Lemma c_aa_type G t y G' : P_body G t y G' -> (forall c r, In c (L "01HIJFG") -> t <> c :: r) -> P_auto_arg G t (show E y) G'.
  Proof.
    intros H Hn. pose proof H as [Hh _]. intros fu rest w sg f n Hfu Hc HB. destruct (body_skips t Hh rest) as (H1 & H2 & H3 & H4 & H5 & H6 & H7 & H8).
    assert (Hne : forall c, In c (L "01HIJFG") -> strip_prefix [c] (t ++ rest) = None).
    { intros c Hi. pose proof (body_len _ Hh) as Hl. destruct t as [|d t]; [cbn in Hl; lia|]. cbn [app strip_prefix].
      destruct (N.eqb_spec c d) as [->|]; [|reflexivity]. exfalso. apply (Hn d t Hi). reflexivity. }
    unfold arg_rest.
    eapply wp_step; [apply eats_no; exact H2|]. cbv iota. eapply wp_step; [apply eats_no; exact H3|]. cbv iota.
    eapply wp_step; [apply eats_no; exact H4|]. cbv iota.
    eapply wp_step; [apply eat_first_none; intros p [<-|[<-|[<-|[<-|[]]]]]; apply Hne; cbn; tauto|]. cbv iota.
    eapply wp_step; [apply text_at|]. rewrite H6. eapply wp_step; [apply eat_first_none; intros p [<-|[<-|[]]]; apply Hne; cbn; tauto|]. cbv iota.
    eapply wp_step; [apply eats_no; apply Hne; cbn; tauto|]. cbv iota.
    eapply wp_mono; [eapply (drop_at _ _ _ _ _ _ H); eassumption|]. apply fin_show. eapply ctx_len; exact Hc.
  Qed.
  Lemma c_aa_typeb G t y G' : P_body G t y G' -> P_auto_arg G (L "$$B" ++ t) (show E y) G'.
  Proof.
    intros H fu rest w sg f n Hfu Hc HB. unfold arg_rest. rewrite <- app_assoc.
    eapply wp_step; [apply eats_no; reflexivity|]. cbv iota. eapply wp_step; [apply eats_yes|]. cbv iota.
    eapply wp_mono; [eapply (drop_at _ _ _ _ _ _ H); [len|exact Hc|len]|]. intros h s Hf. apply fin_show in Hf; [|eapply ctx_len; exact Hc].
    eapply fin_mono; [exact Hf|apply ext_refl|apply ext_refl|len|auto].
  Qed.
  Lemma c_aa_typec m G t y G' : P_mtype m G t y G' -> P_auto_arg G (L "$$C" ++ t) (show E y) G'.
  Proof.
    intros [_ H] fu rest w sg f n Hfu Hc HB. unfold arg_rest. rewrite <- app_assoc.
    eapply wp_step; [apply eats_no; reflexivity|]. cbv iota. eapply wp_step; [apply eats_no; reflexivity|]. cbv iota.
    eapply wp_step; [apply eats_yes|]. cbv iota.
    eapply wp_mono; [eapply H; [len|exact Hc|len]|]. intros h s Hf. apply fin_show in Hf; [|eapply ctx_len; exact Hc].
    eapply fin_mono; [exact Hf|apply ext_refl|apply ext_refl|len|auto].
  Qed.
  Lemma c_aa_alias G t x G' : P_qname G t x G' -> P_auto_arg G (L "$$Y" ++ t) (qualified x) G'.
  Proof.
    intros [_ H] fu rest w sg f n Hfu Hc HB. unfold arg_rest. rewrite <- app_assoc.
    eapply wp_step; [apply eats_yes|]. cbv iota.
    eapply wp_mono; [eapply H; [len|exact Hc|len]|]. intros h s Hf.
    eapply fin_mono; [exact Hf|apply ext_refl|apply ext_refl|len|]. intros w' sg' _ _ _. apply DS_any.
  Qed.
  Lemma c_aa_reference G t x id G' : P_symbol G t x id G' -> P_auto_arg G (L "$E" ++ t) x G'.
  Proof.
    intros [(r0 & Ht) H] fu rest w sg f n Hfu Hc HB. unfold arg_rest. rewrite <- app_assoc.
    do 3 (eapply wp_step; [apply eats_no; reflexivity|]; cbv iota).
    eapply wp_step; [apply eat_first_none; intros p [<-|[<-|[<-|[<-|[]]]]]; reflexivity|]. cbv iota.
    eapply wp_step; [apply text_at|]. assert (H1 : starts_with (L "$E?") (L "$E" ++ t ++ rest) = true) by (rewrite Ht; reflexivity). rewrite H1.
    eapply wp_step; [apply expects_yes|]. apply wp_bind. eapply wp_mono; [eapply H; [len|exact Hc|len]|].
    intros h s (w1 & sg1 & f1 & n1 & -> & X1 & S1 & L1 & C1 & R1 & _).
    eapply last_at; [exact C1|exact X1|exact S1|len|len|exact R1].
  Qed.
  (** What the markers of member pointers lead to. *)
  Definition marker (auto : bool) (c : str) : str := if auto then c else L "$" ++ c.
  Definition symbol_rest (K : knot) (n : nat) : M handle :=
    sym <- template_symbol E K ;; offs <- read_offsets n ;; intern E (NTpr sym offs (Some APointer) true).
  Lemma arg_member auto c n fu r sg f nn (Q : handle -> st -> Prop) : In (c, n) ((L "1", 0) :: member_codes) ->
    wp okerr (symbol_rest (K fu) n) Q (at_ r sg f nn) -> wp okerr (arg_rest (K fu) auto) Q (at_ (marker auto c ++ r) sg f nn).
  Proof.
    intros Hc H. unfold arg_rest.
    cbn in Hc. destruct auto, Hc as [[= <- <-]|[[= <- <-]|[[= <- <-]|[[= <- <-]|[]]]]]; cbn [marker]; rewrite <- ?app_assoc;
      do 3 (eapply wp_step; [apply eats_no; reflexivity|]; cbv iota);
      (eapply wp_step; [cbn; rewrite ?Nat.sub_0_r; reflexivity|]); cbv iota; exact H.
  Qed.
  Lemma arg_data auto c n fu r sg f nn (Q : handle -> st -> Prop) : In (c, n) data_codes ->
    wp okerr (offs <- read_offsets n ;; intern E (NTpr None offs None true)) Q (at_ r sg f nn) -> wp okerr (arg_rest (K fu) auto) Q (at_ (marker auto c ++ r) sg f nn).
  Proof.
    intros Hc H. unfold arg_rest.
    cbn in Hc. destruct auto, Hc as [[= <- <-]|[[= <- <-]|[]]]; cbn [marker]; rewrite <- ?app_assoc;
      do 3 (eapply wp_step; [apply eats_no; reflexivity|]; cbv iota);
      (eapply wp_step; [apply eat_first_none; intros p [<-|[<-|[<-|[<-|[]]]]]; reflexivity|]); cbv iota;
      (eapply wp_step; [apply text_at|]); (match goal with |- context [starts_with ?a ?b] => change (starts_with a b) with false end); cbv iota;
      (eapply wp_step; [cbn; rewrite ?Nat.sub_0_r; reflexivity|]); cbv iota; exact H.
  Qed.
  Lemma nosym_at t r fu sg f n : t <> [] -> first_is_not "?"%char t ->
    template_symbol E (K fu) (at_ (t ++ r) sg f n) = Ok (None, at_ (t ++ r) sg f n).
  Proof.
    intros Hne Hn. unfold template_symbol. rewrite (bind_eq _ _ _ _ _ (text_at _ _ _ _)). destruct t as [|c t]; [congruence|].
    assert (H : starts_with (L "?") ((c :: t) ++ r) = false).
    { cbn [app]. apply (not_q c _ []). intros ->. apply (Hn t). reflexivity. }
    rewrite H. reflexivity.
  Qed.
  Lemma bare_at n t zs rest w0 sg0 M fu w sg f nn G : length zs = n -> 1 <= n -> offsets t zs -> first_is_not "?"%char t ->
    ctx w sg f nn G -> ext w0 w -> ext sg0 sg -> length sg + 1 <= M -> M <= B ->
    wp okerr (symbol_rest (K fu) n) (fin w0 sg0 M rest G (fun w' _ h => DS w' KAny h (braces (map dec_Z zs)))) (at_ (t ++ rest) sg f nn).
  Proof.
    intros Hz Hn Ho Hq Hc Hw Hs HM HB. unfold symbol_rest. pose proof (offsets_len _ _ Ho) as Hl.
    assert (Hne : t <> []) by (intros ->; cbn in Hl; lia).
    eapply wp_step; [apply nosym_at; assumption|]. subst n. eapply wp_step; [apply offsets_at; exact Ho|].
    eapply last_at; [exact Hc|exact Hw|exact Hs|exact HM|exact HB|]. destruct zs as [|z zs]; [cbn in Hn; lia|]. reflexivity.
  Qed.
  Lemma member_pos c n : In (c, n) member_codes -> 1 <= n /\ length c = 1.
  Proof. intros H. cbn in H. destruct H as [[= <- <-]|[[= <- <-]|[[= <- <-]|[]]]]; (split; [lia|reflexivity]). Qed.
  Lemma data_pos c n : In (c, n) data_codes -> 1 <= n /\ length c = 1.
  Proof. intros H. cbn in H. destruct H as [[= <- <-]|[[= <- <-]|[]]]; (split; [lia|reflexivity]). Qed.
  Lemma c_tg_bare_member G c n t zs : In (c, n) member_codes -> length zs = n -> offsets t zs -> first_is_not "?"%char t ->
      P_targ G (L "$" ++ c ++ t) (braces (map dec_Z zs)) G.
  Proof.
    intros Hi Hz Ho Hq. split.
    - rewrite (app_assoc (L "$") c t). cbn in Hi. destruct Hi as [[= <- _]|[[= <- _]|[[= <- _]|[]]]]; marked.
    - destruct (member_pos _ _ Hi) as [Hp Hl]. intros fu rest w sg f nn Hfu Hc HB. rewrite template_arg_eq, <- !app_assoc.
      eapply wp_step; [apply eats_no; cbn in Hi; destruct Hi as [[= <- _]|[[= <- _]|[[= <- _]|[]]]]; reflexivity|]. cbv iota. eapply wp_step; [reflexivity|].
      rewrite app_assoc. apply (arg_member false c n); [right; exact Hi|].
      eapply bare_at; [exact Hz|exact Hp|exact Ho|exact Hq|exact Hc|apply ext_refl|apply ext_refl|len|len].
  Qed.
  Lemma c_aa_bare_member G c n t zs : In (c, n) member_codes -> length zs = n -> offsets t zs -> first_is_not "?"%char t ->
      P_auto_arg G (c ++ t) (braces (map dec_Z zs)) G.
  Proof.
    intros Hi Hz Ho Hq. destruct (member_pos _ _ Hi) as [Hp Hl]. intros fu rest w sg f nn Hfu Hc HB. rewrite <- !app_assoc.
    apply (arg_member true c n); [right; exact Hi|].
    eapply bare_at; [exact Hz|exact Hp|exact Ho|exact Hq|exact Hc|apply ext_refl|apply ext_refl|len|len].
  Qed.
  Lemma c_aa_data G c n t zs : In (c, n) data_codes -> length zs = n -> offsets t zs -> P_auto_arg G (c ++ t) (braces (map dec_Z zs)) G.
  Proof.
    intros Hi Hz Ho. destruct (data_pos _ _ Hi) as [Hp Hl]. intros fu rest w sg f nn Hfu Hc HB. rewrite <- !app_assoc.
    apply (arg_data true c n); [exact Hi|]. subst n. eapply wp_step; [apply offsets_at; exact Ho|].
    eapply last_at; [exact Hc|apply ext_refl|apply ext_refl|len|len|]. destruct zs as [|z zs]; [cbn in Hp; lia|]. reflexivity.
  Qed.
  Lemma c_aa_member G c n t x id G' t1 zs : fits E id -> In (c, n) member_codes -> length zs = n -> P_symbol G t x id G' -> offsets t1 zs ->
      P_auto_arg G (c ++ t ++ t1) (braces (x :: map dec_Z zs)) (remember id G').
  Proof.
    intros HT Hi Hz H Ho. destruct (member_pos _ _ Hi) as [Hp Hl]. pose proof (offsets_len _ _ Ho) as Hol. intros fu rest w sg f nn Hfu Hc HB. rewrite <- !app_assoc.
    apply (arg_member true c n); [right; exact Hi|]. unfold symbol_rest. apply wp_bind.
    eapply wp_mono; [eapply template_symbol_at; [exact HT|apply symbol_there; exact H|len|exact Hc|len]|].
    intros o s (w1 & sg1 & f1 & n1 & -> & X1 & S1 & L1 & C1 & h & -> & R1). subst n.
    eapply wp_step; [apply offsets_at; exact Ho|].
    eapply last_at; [exact C1|exact X1|exact S1|len|len|]. destruct zs as [|z zs]; [cbn in Hp; lia|].
    exists x. split; [exact R1|]. unfold braces. cbn [map join]. rewrite <- !app_assoc. reflexivity.
  Qed.
  Notation P_targs := (P_targs E B).
  Lemma c_ta_nothing G t' xs G2 : first_is_not "?"%char t' -> P_targs G t' xs G2 -> P_targs G (L "$1" ++ t') (L "&" :: xs) G2.
  Proof.
    intros Hq [Hl' H2]. split; [len|]. intros loop acc Hlo fu rest w sg f n Hfu Hc HB.
    destruct loop as [|loop]; [len|]. cbn [targs_loop]. rewrite <- app_assoc.
    eapply wp_step; [apply eat_no; reflexivity|]. eapply wp_step; [apply eat_first_none; apply seps; reflexivity|]. eapply wp_step; [apply text_at|].
    change (is_empty (L "$1" ++ t' ++ rest)) with false. cbv iota.
    apply wp_bind. rewrite template_arg_eq. eapply wp_step; [apply eats_no; reflexivity|]. cbv iota. eapply wp_step; [reflexivity|].
    apply (arg_member false (L "1") 0); [left; reflexivity|]. unfold symbol_rest.
    assert (Hne : t' <> []) by (intros ->; cbn in Hl'; lia).
    eapply wp_step; [apply nosym_at; assumption|]. eapply wp_step; [reflexivity|].
    eapply wp_mono; [eapply (last_at _ (L "&") w sg (length sg + 1)); [exact Hc|apply ext_refl|apply ext_refl|lia|len|reflexivity]|].
    intros h s (w1 & sg1 & f1 & n1 & -> & X1 & S1 & L1 & C1 & R1).
    eapply wp_mono; [eapply (H2 loop (h :: acc)); [len|len|exact C1|len]|]. intros l s Hf.
    eapply fin_mono; [exact Hf|exact X1|exact S1|len|]. intros w' sg' Xw Sw _ (hs & -> & Hhs).
    exists (h :: hs). split; [cbn [rev]; rewrite <- app_assoc; reflexivity|]. constructor; [|exact Hhs].
    eapply DS_sub; [|exact R1]. apply ext_sub. exact Xw.
  Qed.
  Lemma c_ta_auto_nothing G tt y G1 t' xs G2 : P_body G tt y G1 -> first_is_not "?"%char t' -> P_targs G1 t' xs G2 ->
      P_targs G (L "$M" ++ tt ++ L "1" ++ t') (L "&" :: xs) G2.
  Proof.
    intros Hb Hq [Hl' H2]. split; [len|]. intros loop acc Hlo fu rest w sg f n Hfu Hc HB.
    destruct loop as [|loop]; [len|]. cbn [targs_loop]. rewrite <- !app_assoc.
    eapply wp_step; [apply eat_no; reflexivity|]. eapply wp_step; [apply eat_first_none; apply seps; reflexivity|]. eapply wp_step; [apply text_at|].
    change (is_empty (L "$M" ++ tt ++ L "1" ++ t' ++ rest)) with false. cbv iota.
    apply wp_bind. rewrite template_arg_eq. eapply wp_step; [apply eats_yes|]. cbv iota.
    eapply (auto_at tt y G G1 (fun _ => arg_rest (K fu) true)); [exact Hb|len|exact Hc|len|].
    intros w0 sg0 f0 n0 X0 S0 L0 C0. cbv beta.
    apply (arg_member true (L "1") 0); [left; reflexivity|]. unfold symbol_rest.
    assert (Hne : t' <> []) by (intros ->; cbn in Hl'; lia).
    eapply wp_step; [apply nosym_at; assumption|]. eapply wp_step; [reflexivity|].
    eapply wp_mono; [eapply (last_at _ (L "&") w sg (length sg0 + 1)); [exact C0|exact X0|exact S0|lia|len|reflexivity]|].
    intros h s (w1 & sg1 & f1 & n1 & -> & X1 & S1 & L1 & C1 & R1).
    eapply wp_mono; [eapply (H2 loop (h :: acc)); [len|len|exact C1|len]|]. intros l s Hf.
    eapply fin_mono; [exact Hf|exact X1|exact S1|len|]. intros w' sg' Xw Sw _ (hs & -> & Hhs).
    exists (h :: hs). split; [cbn [rev]; rewrite <- app_assoc; reflexivity|]. constructor; [|exact Hhs].
    eapply DS_sub; [|exact R1]. apply ext_sub. exact Xw.
  Qed.

  (** ** MD5 names and string literals in arguments *)
  Lemma arg_symbol auto c n rest G t x id G' t1 zs : In (c, n) ((L "1", 0) :: member_codes) -> fits E id -> length zs = n -> offsets t1 zs ->
    symbol_at E B (t1 ++ rest) G t x id G' ->
    rd1 E B rest 0 (marker auto c ++ t ++ t1) G (remember id G') (fun fu => arg_rest (K fu) auto)
      (fun _ w' _ h => DS w' KAny h (match zs with [] => L "&" ++ x | _ => braces (x :: map dec_Z zs) end)).
  Proof.
    intros Hi HT Hz Ho H fu w sg f nn Hfu Hc HB. rewrite <- !app_assoc. pose proof (offsets_len _ _ Ho) as Hol.
    assert (Hml : 1 <= length (marker auto c)) by (cbn in Hi; destruct auto, Hi as [[= <- _]|[[= <- _]|[[= <- _]|[[= <- _]|[]]]]]; cbn; lia).
    apply (arg_member auto c n); [exact Hi|]. unfold symbol_rest. apply wp_bind.
    eapply wp_mono; [eapply template_symbol_at; [exact HT|exact H|len|exact Hc|len]|].
    intros o s (w1 & sg1 & f1 & n1 & -> & X1 & S1 & L1 & C1 & h & -> & R1). subst n.
    eapply wp_step; [apply offsets_at; exact Ho|].
    eapply last_at; [exact C1|exact X1|exact S1|len|len|]. destruct zs as [|z zs]; exists x; (split; [exact R1|]); [reflexivity|].
    unfold braces. cbn [map join]. rewrite <- !app_assoc. reflexivity.
  Qed.
  Lemma arg_shown auto rest G t x G' : shown_at E B rest G t x G' ->
    rd1 E B rest 0 (L "$E" ++ t) G G' (fun fu => arg_rest (K fu) auto) (fun _ w' _ h => DS w' KAny h x).
  Proof.
    intros [(r0 & Ht) H] fu w sg f n Hfu Hc HB. unfold arg_rest. rewrite <- app_assoc.
    do 3 (eapply wp_step; [apply eats_no; reflexivity|]; cbv iota).
    eapply wp_step; [apply eat_first_none; destruct auto; intros p [<-|[<-|[<-|[<-|[]]]]]; reflexivity|]. cbv iota.
    eapply wp_step; [apply text_at|]. assert (H1 : starts_with (L "$E?") (L "$E" ++ t ++ rest) = true) by (rewrite Ht; reflexivity). rewrite H1.
    eapply wp_step; [apply expects_yes|]. apply wp_bind. eapply wp_mono; [eapply H; [len|exact Hc|len]|].
    intros h s (w1 & sg1 & f1 & n1 & -> & X1 & S1 & L1 & C1 & R1).
    eapply last_at; [exact C1|exact X1|exact S1|len|len|exact R1].
  Qed.
  Lemma arg_plain rest t G G' R : (forall r, strip_prefix (L "$M") (t ++ r) = None) ->
    rd1 E B rest 0 t G G' (fun fu => arg_rest (K fu) false) R -> rd1 E B rest 0 t G G' (fun fu => template_arg E (K fu)) R.
  Proof.
    intros Hm H fu w sg f n Hfu Hc HB. rewrite template_arg_eq. eapply wp_step; [apply eats_no; apply Hm|]. cbv iota. eapply wp_step; [reflexivity|].
    apply H; assumption.
  Qed.
  Lemma arg_auto rest G tt y G1 t G' x : P_body G tt y G1 ->
    rd1 E B rest 0 t G1 G' (fun fu => arg_rest (K fu) true) (fun _ w' _ h => DS w' KAny h x) ->
    rd1 E B rest 0 (L "$M" ++ tt ++ t) G G' (fun fu => template_arg E (K fu)) (fun _ w' _ h => DS w' KAny h x).
  Proof.
    intros Hb H fu w sg f n Hfu Hc HB. rewrite template_arg_eq. rewrite <- !app_assoc.
    eapply wp_step; [apply eats_yes|]. cbv iota.
    eapply (auto_at tt y G G1 (fun _ => arg_rest (K fu) true)); [exact Hb|len|exact Hc|len|].
    intros w1 sg1 f1 n1 X1 S1 L1 C1. cbv beta.
    eapply wp_mono; [eapply H; [len|exact C1|len]|]. intros h s Hf.
    eapply fin_mono; [exact Hf|exact X1|exact S1|len|]. auto.
  Qed.
  Lemma c_ta_md5 G h t' xs G2 : fits E (md5_text h) -> md5_key h -> (forall rest, no_locator (t' ++ rest)) -> P_targs (remember (md5_text h) G) t' xs G2 ->
    P_targs G (L "$1" ++ md5_text h ++ t') ((L "&" ++ md5_text h) :: xs) G2.
  Proof.
    intros HT Hh Hl. rewrite app_assoc. apply targs_cons; [marked|]. intros rest. apply arg_plain; [reflexivity|].
    pose proof (arg_symbol false (L "1") 0 (t' ++ rest) G (md5_text h) (md5_text h) (md5_text h) G [] []) as X. rewrite app_nil_r in X.
    apply X; [left; reflexivity|exact HT|reflexivity|constructor|]. apply md5_open; [exact Hh|apply Hl].
  Qed.
  Lemma c_ta_auto_md5 G tt y G1 h t' xs G2 : fits E (md5_text h) -> P_body G tt y G1 -> md5_key h -> (forall rest, no_locator (t' ++ rest)) ->
    P_targs (remember (md5_text h) G1) t' xs G2 -> P_targs G (L "$M" ++ tt ++ L "1" ++ md5_text h ++ t') ((L "&" ++ md5_text h) :: xs) G2.
  Proof.
    intros HT Hb Hh Hl. rewrite (app_assoc (L "1")), (app_assoc tt), (app_assoc (L "$M")). apply targs_cons; [marked|]. intros rest. eapply arg_auto; [exact Hb|].
    pose proof (arg_symbol true (L "1") 0 (t' ++ rest) G1 (md5_text h) (md5_text h) (md5_text h) G1 [] []) as X. rewrite app_nil_r in X.
    apply X; [left; reflexivity|exact HT|reflexivity|constructor|]. apply md5_open; [exact Hh|apply Hl].
  Qed.
  Lemma c_ta_reference_md5 G h t' xs G2 : md5_key h -> (forall rest, no_locator (t' ++ rest)) -> P_targs G t' xs G2 ->
    P_targs G (L "$E" ++ md5_text h ++ t') (md5_text h :: xs) G2.
  Proof.
    intros Hh Hl. rewrite app_assoc. apply targs_cons; [marked|]. intros rest. apply arg_plain; [reflexivity|].
    apply arg_shown. eapply symbol_shown. apply md5_open; [exact Hh|apply Hl].
  Qed.
  Lemma c_ta_auto_reference_md5 G tt y G1 h t' xs G2 : P_body G tt y G1 -> md5_key h -> (forall rest, no_locator (t' ++ rest)) -> P_targs G1 t' xs G2 ->
    P_targs G (L "$M" ++ tt ++ L "$E" ++ md5_text h ++ t') (md5_text h :: xs) G2.
  Proof.
    intros Hb Hh Hl. rewrite (app_assoc (L "$E")), (app_assoc tt), (app_assoc (L "$M")). apply targs_cons; [marked|]. intros rest. eapply arg_auto; [exact Hb|].
    apply arg_shown. eapply symbol_shown. apply md5_open; [exact Hh|apply Hl].
  Qed.
  (** Offsets are not mistaken for a locator suffix. *)
  Lemma offsets_no_locator t z zs rest : offsets t (z :: zs) -> no_locator (t ++ rest).
  Proof.
    intros H r Hr. inversion H as [|t1 z1 t2 zs1 (v & neg & (u & Hu & ->) & _) _]; subst. destruct (num_head _ _ Hu) as (c & u' & -> & Hc).
    assert (c <> ch "?") by (intros ->; destruct Hc as [Hc|[Hc|Hc]]; discriminate Hc).
    change (locator ++ r) with (ch "?" :: ch "?" :: L "_R4@" ++ r) in Hr.
    destruct neg; cbn [app] in Hr; [|congruence].
    change ((L "?" ++ c :: u') ++ t2) with (ch "?" :: c :: u' ++ t2) in Hr. cbn [app] in Hr. congruence.
  Qed.
  Lemma c_tg_member_md5 G c n h t zs : fits E (md5_text h) -> md5_key h -> In (c, n) member_codes -> length zs = n -> offsets t zs ->
    P_targ G (L "$" ++ c ++ md5_text h ++ t) (braces (md5_text h :: map dec_Z zs)) (remember (md5_text h) G).
  Proof.
    intros HT Hh Hi Hz Ho. destruct (member_pos _ _ Hi) as [Hp _]. destruct zs as [|z zs]; [cbn in Hz; lia|]. split.
    - rewrite (app_assoc (L "$") c). cbn in Hi. destruct Hi as [[= <- _]|[[= <- _]|[[= <- _]|[]]]]; marked.
    - intros fu rest w sg f nn. revert fu w sg f nn.
      rewrite (app_assoc (L "$") c). apply (arg_plain rest _ _ _ (fun _ w' _ h0 => DS w' KAny h0 (braces (md5_text h :: map dec_Z (z :: zs))))); [intros r; cbn in Hi; destruct Hi as [[= <- _]|[[= <- _]|[[= <- _]|[]]]]; reflexivity|].
      apply (arg_symbol false c n rest G (md5_text h) (md5_text h) (md5_text h) G t (z :: zs)); [right; exact Hi|exact HT|exact Hz|exact Ho|].
      apply md5_open; [exact Hh|]. eapply offsets_no_locator; exact Ho.
  Qed.
  Lemma c_aa_member_md5 G c n h t zs : fits E (md5_text h) -> md5_key h -> In (c, n) member_codes -> length zs = n -> offsets t zs ->
    P_auto_arg G (c ++ md5_text h ++ t) (braces (md5_text h :: map dec_Z zs)) (remember (md5_text h) G).
  Proof.
    intros HT Hh Hi Hz Ho. destruct (member_pos _ _ Hi) as [Hp _]. destruct zs as [|z zs]; [cbn in Hz; lia|].
    intros fu rest w sg f nn. revert fu w sg f nn.
    apply (arg_symbol true c n rest G (md5_text h) (md5_text h) (md5_text h) G t (z :: zs)); [right; exact Hi|exact HT|exact Hz|exact Ho|].
    apply md5_open; [exact Hh|]. eapply offsets_no_locator; exact Ho.
  Qed.
  Lemma c_tg_literal G t x : literal (e_out E) t x -> P_targ G (L "$E" ++ t) x G.
  Proof.
    intros H. split; [marked|]. intros fu rest w sg f nn. revert fu w sg f nn.
    apply (arg_plain rest _ _ _ (fun _ w' _ h0 => DS w' KAny h0 x)); [reflexivity|]. apply arg_shown. apply literal_shown. exact H.
  Qed.
  Lemma c_aa_literal G t x : literal (e_out E) t x -> P_auto_arg G (L "$E" ++ t) x G.
  Proof. intros H. intros fu rest w sg f nn. revert fu w sg f nn. apply arg_shown. apply literal_shown. exact H. Qed.
End Args.
