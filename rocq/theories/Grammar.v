(** Proofs of the properties about validation and classification (C01-C08, C33, C34). *)
From Verif Require Import Base GrammarRs Validate Utils Grandfathered Normal LangTag Newtypes Derived Spec
  Observe RegexEquiv Accept AcceptTag Case CaseTag Direct Parse Scan Access Iter Kind.

(** * 1. Constructors decide their production *)

(** [X::new], for the automaton [A] of [X], borrows unchanged the strings that satisfy [P] and hands back
    unchanged all others; it always returns. *)
Definition automaton_decides (A : automaton) (P : bytes -> Prop) : Prop :=
  forall s, (new A s = Ret (Ok s) /\ P s) \/ (new A s = Ret (Err s) /\ ~ P s).

Lemma decides_accepts A P : high_rejects A -> (forall s, accepts A s = true <-> P s) -> automaton_decides A P.
Proof.
  intros H E s. rewrite (new_run A s H). rewrite <- E. destruct (accepts A s); [left|right]; auto.
Qed.

Lemma decides_iff A P Q : (forall s, P s <-> Q s) -> automaton_decides A P -> automaton_decides A Q.
Proof. intros E D s. destruct (D s) as [[D1 D2]|[D1 D2]]; [left|right]; rewrite <- E; auto. Qed.

Lemma tag_decides : automaton_decides LanguageTag (matches abnf_Language_Tag).
Proof. apply decides_accepts; [apply high_LanguageTag|apply accepts_tag]. Qed.

Lemma productions_decided :
  automaton_decides Privateuse (matches abnf_privateuse) /\
  automaton_decides PrivateuseSubtag (matches abnf_privateuse_subtag) /\
  automaton_decides Langtag (matches abnf_langtag) /\
  automaton_decides Language (matches abnf_language) /\
  automaton_decides Primary (matches abnf_primary) /\
  automaton_decides Extlang (matches abnf_extlang) /\
  automaton_decides ExtlangTag (matches abnf_extlang_tag) /\
  automaton_decides Script (matches abnf_script) /\
  automaton_decides Region (matches abnf_region) /\
  automaton_decides Variant (matches abnf_variant) /\
  automaton_decides Variants (matches abnf_variants) /\
  automaton_decides Extension (matches abnf_extension) /\
  automaton_decides ExtensionSubtag (matches abnf_extension_subtag) /\
  automaton_decides Extensions (matches abnf_extensions).
Proof.
  repeat match goal with |- _ /\ _ => split end.
  - exact (decides_accepts _ _ high_Privateuse accepts_privateuse).
  - exact (decides_accepts _ _ high_PrivateuseSubtag accepts_privateuse_subtag).
  - exact (decides_accepts _ _ high_Langtag accepts_langtag).
  - exact (decides_accepts _ _ high_Language accepts_language).
  - exact (decides_accepts _ _ high_Primary accepts_primary).
  - exact (decides_accepts _ _ high_Extlang accepts_extlang).
  - exact (decides_accepts _ _ high_ExtlangTag accepts_extlang_tag).
  - exact (decides_accepts _ _ high_Script accepts_script).
  - exact (decides_accepts _ _ high_Region accepts_region).
  - exact (decides_accepts _ _ high_Variant accepts_variant).
  - exact (decides_accepts _ _ high_Variants accepts_variants).
  - exact (decides_accepts _ _ high_Extension accepts_extension).
  - exact (decides_accepts _ _ high_ExtensionSubtag accepts_extension_subtag).
  - exact (decides_accepts _ _ high_Extensions accepts_extensions).
Qed.

Lemma direct_decided :
  automaton_decides Privateuse (has_text private_ok private_text) /\
  automaton_decides PrivateuseSubtag (is_true_of pu_subtag_ok) /\
  automaton_decides Langtag (has_text tag_ok tag_text) /\
  automaton_decides Language (has_text language_ok language_text) /\
  automaton_decides Primary (is_true_of primary_ok) /\
  automaton_decides Extlang (has_text extlangs_ok join) /\
  automaton_decides ExtlangTag (is_true_of extlang_tag_ok) /\
  automaton_decides Script (is_true_of script_ok) /\
  automaton_decides Region (is_true_of region_ok) /\
  automaton_decides Variant (is_true_of variant_ok) /\
  automaton_decides Variants (has_text variants_ok join) /\
  automaton_decides Extension (has_text extension_ok extension_text) /\
  automaton_decides ExtensionSubtag (is_true_of ext_subtag_ok) /\
  automaton_decides Extensions (has_text extensions_ok extensions_text).
Proof.
  destruct productions_decided as (D1 & D2 & D3 & D4 & D5 & D6 & D7 & D8 & D9 & D10 & D11 & D12 & D13 & D14).
  repeat match goal with |- _ /\ _ => split end.
  - exact (decides_iff _ _ _ matches_privateuse D1).
  - exact (decides_iff _ _ _ matches_privateuse_subtag D2).
  - exact (decides_iff _ _ _ matches_langtag D3).
  - exact (decides_iff _ _ _ matches_language D4).
  - exact (decides_iff _ _ _ matches_primary D5).
  - exact (decides_iff _ _ _ matches_extlang D6).
  - exact (decides_iff _ _ _ matches_extlang_tag D7).
  - exact (decides_iff _ _ _ matches_script D8).
  - exact (decides_iff _ _ _ matches_region D9).
  - exact (decides_iff _ _ _ matches_variant D10).
  - exact (decides_iff _ _ _ matches_variants D11).
  - exact (decides_iff _ _ _ matches_extension D12).
  - exact (decides_iff _ _ _ matches_extension_subtag D13).
  - exact (decides_iff _ _ _ matches_extensions D14).
Qed.

Lemma decides_ok A P s : automaton_decides A P -> (new A s = Ret (Ok s) <-> P s).
Proof. intros D. destruct (D s) as [[D1 D2]|[D1 D2]]; rewrite D1; split; try tauto; discriminate. Qed.

(** * 2. Letter case *)

Definition all_automata : list automaton :=
  [LanguageTag; Privateuse; PrivateuseSubtag; Langtag; Language; Primary; Extlang; ExtlangTag; Script;
   Region; Variant; Variants; Extension; ExtensionSubtag; Extensions].

Lemma all_high A : In A all_automata -> high_rejects A.
Proof.
  cbn [all_automata In]. intros H.
  repeat (destruct H as [H|H]; [subst A|]); try contradiction; auto using high_LanguageTag, high_Privateuse,
    high_PrivateuseSubtag, high_Langtag, high_Language, high_Primary, high_Extlang, high_ExtlangTag, high_Script,
    high_Region, high_Variant, high_Variants, high_Extension, high_ExtensionSubtag, high_Extensions.
Qed.

Lemma all_blind A : In A all_automata -> case_blind 1000 A = true.
Proof.
  cbn [all_automata In]. intros H.
  repeat (destruct H as [H|H]; [subst A|]); try contradiction.
  - exact blind_LanguageTag.
  - exact blind_Privateuse.
  - exact blind_PrivateuseSubtag.
  - exact blind_Langtag.
  - exact blind_Language.
  - exact blind_Primary.
  - exact blind_Extlang.
  - exact blind_ExtlangTag.
  - exact blind_Script.
  - exact blind_Region.
  - exact blind_Variant.
  - exact blind_Variants.
  - exact blind_Extension.
  - exact blind_ExtensionSubtag.
  - exact blind_Extensions.
Qed.

Lemma validation_case A s s' : In A all_automata -> same_ci s s' -> new_is_ok A s = new_is_ok A s'.
Proof.
  intros H E. rewrite !new_is_ok_run by (apply all_high, H). f_equal.
  exact (case_blind_same A _ (all_blind A H) s s' E).
Qed.

Lemma gf_find_ci s s' : same_ci s s' -> gf_find GRANDFATHERED s = gf_find GRANDFATHERED s'.
Proof.
  intros E. destruct (gf_find GRANDFATHERED s) as [g|] eqn:G.
  - symmetry. apply gf_find_spec. apply gf_find_spec in G. eapply same_ci_trans; [apply same_ci_sym, E|exact G].
  - destruct (gf_find GRANDFATHERED s') as [g|] eqn:G'; [|reflexivity].
    apply gf_find_spec in G'. pose proof (same_ci_trans _ _ _ E G') as G''. apply gf_find_spec in G''. congruence.
Qed.

(** * 3. Shape of accepted strings *)

Lemma gf_segs g : exists l, l <> [] /\ Grandfathered_as_bytes g = join l /\ forallb seg_ok l = true.
Proof.
  exists (split (Grandfathered_as_bytes g)). destruct g; (split; [discriminate|]); split; reflexivity.
Qed.

Lemma seg_ok_lower x : seg_ok (map lower x) = seg_ok x.
Proof. apply sized_lower, lower_alnum. Qed.

Lemma lower_split s : split (map lower s) = map (map lower) (split s).
Proof.
  induction s as [|b s IH]; [reflexivity|]. cbn [map split].
  assert (E : beq (lower b) dash = beq b dash).
  { destruct (beq b dash) eqn:B.
    - apply beq_true in B. subst b. reflexivity.
    - apply beq_false in B. apply beq_false. rewrite lower_dash. exact B. }
  rewrite E. destruct (beq b dash); [rewrite IH; reflexivity|].
  rewrite IH. destruct (split s) as [|x l]; reflexivity.
Qed.

Lemma join_split s : join (split s) = s.
Proof.
  induction s as [|b s IH]; [reflexivity|]. cbn [split].
  destruct (beq b dash) eqn:B.
  - apply beq_true in B. subst b. pose proof (split_not_nil s). destruct (split s) as [|x l]; [congruence|].
    rewrite <- IH. reflexivity.
  - destruct (split s) as [|x l] eqn:S; [exfalso; exact (split_not_nil s S)|].
    rewrite join_cons in IH |- *. cbn [app]. congruence.
Qed.

Lemma same_ci_segs s l : l <> [] -> forallb seg_ok l = true -> same_ci s (join l) ->
  forallb seg_ok (split s) = true.
Proof.
  intros Hne Hl E. unfold same_ci in E. apply (f_equal split) in E. rewrite !lower_split in E.
  rewrite split_join in E by (auto using segs_dash_free).
  apply (f_equal (forallb seg_ok)) in E. 
  etransitivity; [symmetry; apply (lower_list_ok seg_ok (split s) seg_ok_lower)|].
  etransitivity; [exact E|]. etransitivity; [apply (lower_list_ok seg_ok l seg_ok_lower)|exact Hl].
Qed.

Lemma accepted_segs s : accepts LanguageTag s = true ->
  exists l, l <> [] /\ s = join l /\ forallb seg_ok l = true.
Proof.
  intros H. apply accepts_tag_cases in H as [H|[H|[g H]]].
  - apply langtag_is_tag in H as [t [Ht E]]. exists (tag_subtags t).
    auto using tag_subtags_nil, segs_tag.
  - apply privateuse_is_private in H as [p [Hp E]]. exists (private_parts p).
    split; [discriminate|]. auto using segs_private.
  - apply gf_find_spec in H. destruct (gf_segs g) as (l & Hne & E & Hl). rewrite E in H.
    exists (split s). split; [apply split_not_nil|]. split; [symmetry; apply join_split|].
    exact (same_ci_segs s l Hne Hl H).
Qed.

Lemma seg_cons x : seg_ok x = true -> exists b x', x = b :: x' /\ is_alnum b = true.
Proof.
  intros H. apply sized_spec in H as [H1 H2]. destruct x as [|b x]; cbn in H1; [lia|].
  cbn in H2. apply andb_true_iff in H2 as [H2 _]. eauto.
Qed.

Lemma seg_bytes x b : seg_ok x = true -> In b x -> is_alnum b = true.
Proof. intros H. apply sized_spec in H as [_ H]. rewrite forallb_forall in H. auto. Qed.

Lemma join_no_head l q : forallb seg_ok l = true -> join l <> dash :: q.
Proof.
  intros H. destruct l as [|x l]; [discriminate|]. cbn in H. apply andb_true_iff in H as [H _].
  destruct (seg_cons x H) as (b & x' & -> & Hb). rewrite join_cons. intros E. injection E as E _.
  exact (alnum_dash b Hb E).
Qed.

Lemma join_no_double l : forallb seg_ok l = true -> forall p q, join l <> p ++ dash :: dash :: q.
Proof.
  induction l as [|x l IH]; intros H p q; [destruct p; discriminate|].
  cbn in H. apply andb_true_iff in H as [Hx Hl]. rewrite join_cons.
  assert (Hx' : forall b, In b x -> b <> dash) by (intros b Hb; apply alnum_dash; exact (seg_bytes x b Hx Hb)).
  clear Hx. revert p. induction x as [|b x IHx]; intros p E; cbn [app] in E.
  - destruct l as [|y l]; [destruct p; discriminate|].
    rewrite dtail_join in E by discriminate.
    destruct p as [|c p]; cbn [app] in E.
    + injection E as E2. exact (join_no_head _ _ Hl E2).
    + injection E as E1 E2. exact (IH Hl _ _ E2).
  - destruct p as [|c p]; cbn [app] in E; injection E as E1 E2.
    + apply (Hx' b); [left; reflexivity|exact E1].
    + apply (IHx (fun b' Hb => Hx' b' (or_intror Hb)) p E2).
Qed.

Lemma join_no_last l : forallb seg_ok l = true -> forall p, join l <> p ++ [dash].
Proof.
  induction l as [|x l IH]; intros H p; [destruct p; discriminate|].
  cbn in H. apply andb_true_iff in H as [Hx Hl]. rewrite join_cons.
  assert (Hx' : forall b, In b x -> b <> dash) by (intros b Hb; apply alnum_dash; exact (seg_bytes x b Hx Hb)).
  clear Hx. revert p. induction x as [|b x IHx]; intros p E; cbn [app] in E.
  - destruct l as [|y l]; [destruct p; discriminate|].
    rewrite dtail_join in E by discriminate.
    destruct p as [|c p]; cbn [app] in E; apply (f_equal (@tl byte)) in E; cbn [tl] in E; rename E into E2.
    + rewrite join_cons in E2. cbn in Hl. apply andb_true_iff in Hl as [Hy _].
      destruct (seg_cons y Hy) as (b & y' & -> & _). discriminate E2.
    + exact (IH Hl _ E2).
  - destruct p as [|c p]; cbn [app] in E; injection E as E1 E2.
    + apply (Hx' b); [left; reflexivity|exact E1].
    + apply (IHx (fun b' Hb => Hx' b' (or_intror Hb)) p E2).
Qed.

Lemma join_bytes l b : forallb seg_ok l = true -> In b (join l) -> is_alnum b = true \/ b = dash.
Proof.
  destruct l as [|x l]; [contradiction|]. intros H. rewrite join_cons. cbn in H.
  apply andb_true_iff in H as [Hx Hl]. rewrite in_app_iff. intros [Hb|Hb].
  - left. exact (seg_bytes x b Hx Hb).
  - unfold dtail in Hb. apply in_flat_map in Hb as (y & Hy & Hb). destruct Hb as [<-|Hb]; [right; reflexivity|].
    left. rewrite forallb_forall in Hl. exact (seg_bytes y b (Hl y Hy) Hb).
Qed.

Lemma run_high A s : high_rejects A -> (exists b, In b s /\ (128 <= code b)%N) -> forall q, run A q s = false.
Proof.
  intros HA (b & Hb & Hc). induction s as [|c s IH]; [contradiction|]. intros q. cbn [run].
  destruct Hb as [->|Hb].
  - rewrite HA by exact Hc. reflexivity.
  - destruct (push A q (code c)); auto.
Qed.

Lemma high_byte_rejected d A s b : decoder_ok d -> In A all_automata -> In b s -> (128 <= code b)%N ->
  validate_with d A s = Ret false.
Proof.
  intros Hd HA Hb Hc. rewrite validate_with_run by (auto using all_high). f_equal.
  apply run_high; eauto using all_high.
Qed.

Lemma decoder_irrelevant d d' A s : decoder_ok d -> decoder_ok d' -> In A all_automata ->
  validate_with d A s = validate_with d' A s.
Proof. intros H H' HA. rewrite !validate_with_run by (auto using all_high). reflexivity. Qed.

(** * 4. Classification *)

Lemma irregular_iff s : one_of irregular_tags s <->
  exists g, gf_irregular g = true /\ gf_find GRANDFATHERED s = Some g.
Proof. rewrite one_of_irregular. split; intros (g & H & E); exists g; split; auto; apply gf_find_spec, E. Qed.

Lemma classification s : new LanguageTag s = Ret (Ok s) ->
  (matches abnf_langtag s /\ ~ matches abnf_privateuse s /\ ~ one_of irregular_tags s /\
   LangTag_as_typed s = Ret (TNormal s) /\ LangTag_kind s = Ret KNormal) \/
  (~ matches abnf_langtag s /\ matches abnf_privateuse s /\ ~ one_of irregular_tags s /\
   LangTag_as_typed s = Ret (TPrivateUse s) /\ LangTag_kind s = Ret KPrivateUse) \/
  (~ matches abnf_langtag s /\ ~ matches abnf_privateuse s /\ one_of irregular_tags s /\
   exists g, same_ci s (Grandfathered_as_bytes g) /\
     LangTag_as_typed s = Ret (TGrandfathered g) /\ LangTag_kind s = Ret KGrandfathered).
Proof.
  intros H. apply new_ok in H; [|apply high_LanguageTag].
  destruct (tag_form s H) as (t & Et & F). unfold LangTag_kind. rewrite Et. cbn [omap bind].
  rewrite <- accepts_langtag, <- accepts_privateuse, irregular_iff.
  destruct F as [L P|L P G|g L P I S]; [left|right;left|right;right]; rewrite L, P.
  - repeat split; try discriminate. intros (g & Hg & G). apply gf_find_spec in G.
    rewrite (gf_langtag_ci _ _ G), Hg in L. discriminate.
  - repeat split; try discriminate. intros (g & Hg & G'). congruence.
  - repeat split; try discriminate.
    + exists g. split; [exact I|]. apply gf_find_spec, S.
    + exists g. repeat split. exact S.
Qed.

(** What the [is_*] methods mean. *)
Lemma is_methods s :
  LangTag_is_normal s = Ret true /\ matches abnf_langtag s \/
  LangTag_is_normal s = Ret false /\ ~ matches abnf_langtag s.
Proof.
  rewrite is_normal_eq, <- accepts_langtag. destruct (accepts Langtag s); [left|right]; auto.
Qed.
Lemma is_private_use_spec s :
  LangTag_is_private_use s = Ret true /\ matches abnf_privateuse s \/
  LangTag_is_private_use s = Ret false /\ ~ matches abnf_privateuse s.
Proof.
  rewrite is_private_use_eq, <- accepts_privateuse. destruct (accepts Privateuse s); [left|right]; auto.
Qed.
Lemma is_grandfathered_spec s :
  LangTag_is_grandfathered s = Ret true /\ matches abnf_grandfathered s \/
  LangTag_is_grandfathered s = Ret false /\ ~ matches abnf_grandfathered s.
Proof.
  rewrite is_grandfathered_eq, matches_grandfathered. destruct (gf_find GRANDFATHERED s) as [g|]; [left|right]; split; auto.
  - eauto.
  - intros [g H]. discriminate.
Qed.
