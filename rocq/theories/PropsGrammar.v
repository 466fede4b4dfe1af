(** Properties C01-C08 and C47: what the constructors accept and how tags are classified. *)
From Verif Require Import Base GrammarRs Validate Utils Grandfathered Normal LangTag Newtypes Derived Spec Observe
  RegexEquiv Accept AcceptTag Case CaseTag Direct Parse Scan Access Iter Kind Grammar Parts Compose Order Values More
  Samples.

(** * C01 *)

Theorem C01_langtag_new : decides LangTagT (matches abnf_Language_Tag).
Proof. exact tag_decides. Qed.
Print Assumptions C01_langtag_new.
Example C01_accepts : accepted LangTagT (bs "zh-cmn-Hans-CN") /\ accepted LangTagT (bs "X-whatever") /\
  accepted LangTagT (bs "I-KLINGON").
Proof. repeat split; vm_compute; reflexivity. Qed.
Example C01_rejects : new_of LangTagT (bs "a-DE") = Ret (Err (bs "a-DE")) /\
  new_of LangTagT (bs "de-419-DE") = Ret (Err (bs "de-419-DE")) /\ new_of LangTagT [] = Ret (Err []).
Proof. repeat split; vm_compute; reflexivity. Qed.

(** * C02 *)

Theorem C02_normal_decomposition : decides NormalLangTagT (fun s => exists t, is_tag s t).
Proof. exact (proj1 (proj2 (proj2 direct_decided))). Qed.
Theorem C02_unique : forall s t t', is_tag s t -> is_tag s t' -> t = t'.
Proof. intros s t t' [T ->] [T' E]. exact (tag_unique t t' T T' E). Qed.
Print Assumptions C02_normal_decomposition.
Print Assumptions C02_unique.
Example C02_case : is_tag full_text full_tag.
Proof. exact full_is_tag. Qed.

(** * C03 *)

Theorem C03_productions :
  decides PrivateUseT (matches abnf_privateuse) /\
  decides PrivateUseSubtagT (matches abnf_privateuse_subtag) /\
  decides NormalLangTagT (matches abnf_langtag) /\
  decides LanguageT (matches abnf_language) /\
  decides PrimaryLanguageT (matches abnf_primary) /\
  decides LanguageExtensionT (matches abnf_extlang) /\
  decides ExtendedLangTagT (matches abnf_extlang_tag) /\
  decides ScriptT (matches abnf_script) /\
  decides RegionT (matches abnf_region) /\
  decides VariantT (matches abnf_variant) /\
  decides VariantsT (matches abnf_variants) /\
  decides ExtensionT (matches abnf_extension) /\
  decides ExtensionSubtagT (matches abnf_extension_subtag) /\
  decides ExtensionsT (matches abnf_extensions).
Proof. exact productions_decided. Qed.
Theorem C03_direct :
  decides PrivateUseT (has_text private_ok private_text) /\
  decides PrivateUseSubtagT (is_true_of pu_subtag_ok) /\
  decides NormalLangTagT (has_text tag_ok tag_text) /\
  decides LanguageT (has_text language_ok language_text) /\
  decides PrimaryLanguageT (is_true_of primary_ok) /\
  decides LanguageExtensionT (has_text extlangs_ok join) /\
  decides ExtendedLangTagT (is_true_of extlang_tag_ok) /\
  decides ScriptT (is_true_of script_ok) /\
  decides RegionT (is_true_of region_ok) /\
  decides VariantT (is_true_of variant_ok) /\
  decides VariantsT (has_text variants_ok join) /\
  decides ExtensionT (has_text extension_ok extension_text) /\
  decides ExtensionSubtagT (is_true_of ext_subtag_ok) /\
  decides ExtensionsT (has_text extensions_ok extensions_text).
Proof. exact direct_decided. Qed.
Print Assumptions C03_productions.
Print Assumptions C03_direct.
Example C03_accepts : accepted VariantsT (bs "1996-rozaj") /\ accepted ExtensionsT (bs "a-foo-bar-b-baz") /\
  accepted LanguageT (bs "zh-cmn-yue-nan") /\ accepted RegionT (bs "419") /\ accepted PrivateUseT (bs "X-1-2").
Proof. repeat split; vm_compute; reflexivity. Qed.
Example C03_rejects : ~ accepted VariantsT (bs "abcd") /\ ~ accepted ExtensionsT (bs "x-foo") /\
  ~ accepted LanguageT (bs "abcd-efg") /\ ~ accepted RegionT (bs "4a9") /\ ~ accepted PrivateUseT (bs "x").
Proof. repeat split; intros H; vm_compute in H; discriminate. Qed.

(** * C04 *)

Theorem C04_grandfathered_new :
  (forall s g, Grandfathered_new s = Ret (Ok g) <-> same_ci s (Grandfathered_as_bytes g)) /\
  (forall s, (forall g, ~ same_ci s (Grandfathered_as_bytes g)) <-> Grandfathered_new s = Ret (Err s)) /\
  (forall g, Grandfathered_new (Grandfathered_as_bytes g) = Ret (Ok g)).
Proof.
  split; [exact grandfathered_parse|]. split; [exact grandfathered_reject|].
  intros g. apply grandfathered_parse. reflexivity.
Qed.
(** The texts are the registered ones, and each registered tag has a variant. *)
Theorem C04_registered :
  (forall g, exists x, In x (irregular_tags ++ regular_tags) /\ Grandfathered_as_bytes g = bs x) /\
  (forall x, In x (irregular_tags ++ regular_tags) -> exists g, Grandfathered_as_bytes g = bs x) /\
  (forall s, (exists g, Grandfathered_new s = Ret (Ok g)) <-> one_of (irregular_tags ++ regular_tags) s).
Proof.
  destruct grandfathered_texts as (I & R & A).
  assert (T : forall g, exists x, In x (irregular_tags ++ regular_tags) /\ Grandfathered_as_bytes g = bs x).
  { intros g. destruct (gf_irregular g) eqn:G; [destruct (I g G) as (x & Hx & E)|destruct (R g G) as (x & Hx & E)];
      exists x; split; auto; apply in_app_iff; auto. }
  split; [exact T|]. split; [exact A|]. intros s. split.
  - intros (g & G). apply grandfathered_parse in G. destruct (T g) as (x & Hx & E). exists x. split; [exact Hx|].
    rewrite <- E. exact G.
  - intros (x & Hx & G). destruct (A x Hx) as (g & E). exists g. apply grandfathered_parse. rewrite E. exact G.
Qed.
(** Which variant has which text. *)
Theorem C04_texts : forall s g, Grandfathered_new s = Ret (Ok g) <->
  exists x, In (g, x)
    [ (EnGbOed, "en-GB-oed"); (IAmi, "i-ami"); (IBnn, "i-bnn"); (IDefault, "i-default"); (IEnochian, "i-enochian");
      (IHak, "i-hak"); (IKlingon, "i-klingon"); (ILux, "i-lux"); (IMingo, "i-mingo"); (INavajo, "i-navajo");
      (IPwn, "i-pwn"); (ITao, "i-tao"); (ITay, "i-tay"); (ITsu, "i-tsu"); (SgnBeFr, "sgn-BE-FR");
      (SgnBeNl, "sgn-BE-NL"); (SgnChDe, "sgn-CH-DE"); (ArtLojban, "art-lojban"); (CelGaulish, "cel-gaulish");
      (NoBok, "no-bok"); (NoNyn, "no-nyn"); (ZhGuoyu, "zh-guoyu"); (ZhHakka, "zh-hakka"); (ZhMin, "zh-min");
      (ZhMinNan, "zh-min-nan"); (ZhXiang, "zh-xiang") ]%string /\
    same_ci s (bs x).
Proof.
  intros s g. rewrite grandfathered_parse. split.
  - intros G. exists (String.string_of_list_byte (Grandfathered_as_bytes g)).
    split; [destruct g; vm_compute; tauto|]. destruct g; exact G.
  - intros (x & X & G). repeat (destruct X as [[= <- <-]|X]; [exact G|]). destruct X.
Qed.
Print Assumptions C04_texts.
Print Assumptions C04_grandfathered_new.
Print Assumptions C04_registered.
Example C04_case : Grandfathered_new (bs "SGN-be-fr") = Ret (Ok SgnBeFr) /\
  Grandfathered_new (bs "zh-mi") = Ret (Err (bs "zh-mi")).
Proof. split; vm_compute; reflexivity. Qed.

(** * C05 *)

Theorem C05_validation_case : forall ty s s', same_ci s s' ->
  (accepted ty s <-> accepted ty s') /\
  (new_of ty s = Ret (Err s) <-> new_of ty s' = Ret (Err s')).
Proof.
  intros ty s s' E. pose proof (accepted_ci ty s s' E) as A. split; [exact A|].
  assert (D : forall x, accepted ty x \/ new_of ty x = Ret (Err x) /\ ~ accepted ty x).
  { intros x. unfold accepted, new_of. rewrite new_run by (apply all_high; destruct ty; cbn; auto 20).
    destruct (accepts _ x); [left; reflexivity|right; split; [reflexivity|discriminate]]. }
  unfold accepted in *. destruct (D s) as [X|[X X']], (D s') as [Y|[Y Y']]; split; intros Z;
    try assumption; exfalso; try tauto; rewrite Z in *; try discriminate; intuition discriminate.
Qed.
Theorem C05_grandfathered : forall s s', same_ci s s' -> forall g,
  Grandfathered_new s = Ret (Ok g) <-> Grandfathered_new s' = Ret (Ok g).
Proof.
  intros s s' E g. rewrite !grandfathered_parse. unfold same_ci in *. rewrite E. reflexivity.
Qed.
Print Assumptions C05_validation_case.
Print Assumptions C05_grandfathered.
Example C05_case : same_ci (bs "SL-roZAJ-X-a") (bs "sl-Rozaj-x-A") /\ accepted LangTagT (bs "SL-roZAJ-X-a").
Proof. split; vm_compute; reflexivity. Qed.

(** * C06 *)

Theorem C06_accepted_shape : forall s, accepted LangTagT s ->
  s <> [] /\
  (forall b, In b s -> is_alnum b = true \/ b = dash) /\
  (forall q, s <> dash :: q) /\ (forall p, s <> p ++ [dash]) /\ (forall p q, s <> p ++ dash :: dash :: q) /\
  exists l, s = join l /\ l <> [] /\
    forall x, In x l -> 1 <= length x <= 8 /\ forall b, In b x -> is_alnum b = true.
Proof.
  intros s A. assert (K : accepts LanguageTag s = true) by (apply new_ok; [apply all_high; cbn; auto|exact A]).
  destruct (accepted_segs s K) as (l & L & -> & G). split.
  { intros E. pose proof (join_length l L G) as N. rewrite E in N. cbn in N. lia. }
  split; [intros b; apply join_bytes, G|]. split; [intros q; apply join_no_head, G|].
  split; [apply join_no_last, G|]. split; [apply join_no_double, G|].
  exists l. split; [reflexivity|]. split; [exact L|]. intros x X. pose proof (in_forallb _ _ _ G X) as Gx.
  split; [|intros b; apply seg_bytes, Gx]. unfold seg_ok in Gx. apply sized_spec in Gx. lia.
Qed.
Theorem C06_non_ascii : forall d ty s b, decoder_ok d -> In b s -> (128 <= code b)%N ->
  validate_with d (automaton_of ty) s = Ret false.
Proof. intros d ty s b D. apply high_byte_rejected; [exact D|]. destruct ty; cbn; auto 20. Qed.
Theorem C06_decoder_irrelevant : forall d d' ty s, decoder_ok d -> decoder_ok d' ->
  validate_with d (automaton_of ty) s = validate_with d' (automaton_of ty) s.
Proof. intros d d' ty s D D'. apply decoder_irrelevant; auto. destruct ty; cbn; auto 20. Qed.
Print Assumptions C06_accepted_shape.
Print Assumptions C06_non_ascii.
Print Assumptions C06_decoder_irrelevant.
Example C06_case : accepted LangTagT full_text /\ decoder_ok decode_utf8_char /\
  validate_with decode_utf8_char LanguageTag (bs "fr-" ++ ["195"; "169"]%byte) = Ret false.
Proof. split; [vm_compute; reflexivity|]. split; [exact decode_utf8_char_ok|vm_compute; reflexivity]. Qed.

(** * C07 *)

Theorem C07_classification : forall s, accepted LangTagT s -> exists k,
  LangTag_kind s = Ret k /\
  (k = KNormal <-> matches abnf_langtag s) /\
  (k = KPrivateUse <-> matches abnf_privateuse s) /\
  (k = KGrandfathered <-> one_of irregular_tags s) /\
  exists ty, LangTag_as_typed s = Ret ty /\
    match k with
    | KNormal => ty = TNormal s
    | KPrivateUse => ty = TPrivateUse s
    | KGrandfathered => exists g, ty = TGrandfathered g /\ same_ci s (Grandfathered_as_bytes g)
    end.
Proof.
  intros s A. destruct (classification s A) as [H|[H|H]].
  - exists KNormal. destruct H as (H1 & H2 & H3 & H4 & H5). repeat (split; [intuition congruence|]). eauto.
  - exists KPrivateUse. destruct H as (H1 & H2 & H3 & H4 & H5). repeat (split; [intuition congruence|]). eauto.
  - exists KGrandfathered. destruct H as (H1 & H2 & H3 & g & H4 & H5 & H6).
    repeat (split; [intuition congruence|]). exists (TGrandfathered g). split; [exact H5|]. exists g. auto.
Qed.
(** The views of [TypedLangTag] and [Kind] agree with that kind. *)
Theorem C07_typed_views : forall s ty, accepted LangTagT s -> LangTag_as_typed s = Ret ty ->
  LangTag_kind s = Ret (Typed_kind ty) /\
  (Typed_is_normal ty = true <-> Typed_kind ty = KNormal) /\
  (Typed_is_private_use ty = true <-> Typed_kind ty = KPrivateUse) /\
  (Typed_is_grandfathered ty = true <-> Typed_kind ty = KGrandfathered) /\
  (Kind_is_normal (Typed_kind ty) = Typed_is_normal ty) /\
  (Kind_is_private_use (Typed_kind ty) = Typed_is_private_use ty) /\
  (Kind_is_grandfathered (Typed_kind ty) = Typed_is_grandfathered ty) /\
  (forall x, Typed_as_normal ty = Some x <-> ty = TNormal x) /\
  (forall x, Typed_as_private_use ty = Some x <-> ty = TPrivateUse x) /\
  (forall g, Typed_as_grandfathered ty = Some g <-> ty = TGrandfathered g) /\
  LangTag_as_normal s = Ret (Typed_as_normal ty) /\
  LangTag_as_private_use s = Ret (Typed_as_private_use ty) /\
  (forall g, Typed_as_grandfathered ty = Some g -> LangTag_as_grandfathered s = Ret (Some g)).
Proof.
  intros s ty A E.
  assert (K : accepts LanguageTag s = true) by (apply new_ok; [apply all_high; cbn; auto|exact A]).
  destruct (tag_form s K) as (ty' & E' & F). rewrite E in E'. injection E' as <-.
  split; [unfold LangTag_kind; rewrite E; reflexivity|].
  destruct F as [F1 F2|F1 F2 F3|g F1 F2 F3 F4]; cbn [Typed_is_normal Typed_is_private_use Typed_is_grandfathered
    Typed_kind Kind_is_normal Kind_is_private_use Kind_is_grandfathered Typed_as_normal Typed_as_private_use
    Typed_as_grandfathered]; rewrite as_normal_eq, as_private_use_eq, as_grandfathered_eq, F1, F2;
    repeat (split; [first [reflexivity | split; (reflexivity || discriminate) | intros x; split; congruence]|]); intros h Hh; try discriminate.
  injection Hh as <-. apply gf_find_spec in F4. rewrite F4. reflexivity.
Qed.
Print Assumptions C07_classification.
Print Assumptions C07_typed_views.
Example C07_case : LangTag_kind full_text = Ret KNormal /\ LangTag_kind (bs "x-a") = Ret KPrivateUse /\
  LangTag_kind (bs "I-Klingon") = Ret KGrandfathered /\
  LangTag_as_typed (bs "I-Klingon") = Ret (TGrandfathered IKlingon).
Proof. repeat split; vm_compute; reflexivity. Qed.

(** * C08: false.  Full statement: on an accepted tag, exactly one of the three predicates holds, the one that
    [kind] names. *)

Definition C08_statement : Prop := forall s, accepted LangTagT s -> exists k,
  LangTag_kind s = Ret k /\ LangTag_is_normal s = Ret (Kind_is_normal k) /\
  LangTag_is_private_use s = Ret (Kind_is_private_use k) /\
  LangTag_is_grandfathered s = Ret (Kind_is_grandfathered k).
Theorem C08_refuted : ~ C08_statement.
Proof.
  intros H. destruct (H (bs "zh-min")) as (k & K & _ & _ & G); [vm_compute; reflexivity|].
  vm_compute in K. injection K as <-. vm_compute in G. discriminate.
Qed.
(** Exactly: [is_normal] and [is_private_use] agree with [kind]; [is_grandfathered] also holds of the nine
    regular grandfathered tags, whose kind is normal. *)
Theorem C08_exact_partial : forall s, accepted LangTagT s -> exists k,
  LangTag_kind s = Ret k /\ LangTag_is_normal s = Ret (Kind_is_normal k) /\
  LangTag_is_private_use s = Ret (Kind_is_private_use k) /\
  (LangTag_is_grandfathered s = Ret (Kind_is_grandfathered k) <-> ~ one_of regular_tags s) /\
  (one_of regular_tags s -> k = KNormal /\ LangTag_is_grandfathered s = Ret true).
Proof.
  intros s A.
  assert (K : accepts LanguageTag s = true) by (apply new_ok; [apply all_high; cbn; auto|exact A]).
  assert (Rg : one_of regular_tags s <-> exists g, gf_irregular g = false /\ gf_find GRANDFATHERED s = Some g).
  { rewrite one_of_regular. split; intros (g & I & G); exists g; (split; [exact I|]); apply gf_find_spec, G. }
  destruct (tag_form s K) as (ty & E & F). exists (Typed_kind ty).
  split; [unfold LangTag_kind; rewrite E; reflexivity|].
  rewrite is_normal_eq, is_private_use_eq, is_grandfathered_eq, Rg.
  destruct F as [F1 F2|F1 F2 F3|g F1 F2 F3 F4]; rewrite F1, F2;
    cbn [Typed_kind Kind_is_normal Kind_is_private_use Kind_is_grandfathered]; (split; [reflexivity|]);
    (split; [reflexivity|]).
  - destruct (gf_find GRANDFATHERED s) as [g|] eqn:G; cbn [is_some].
    + assert (I : gf_irregular g = false).
      { pose proof G as G'. apply gf_find_spec in G'. pose proof (gf_langtag_ci s g G') as X. rewrite F1 in X.
        destruct (gf_irregular g); [discriminate|reflexivity]. }
      split; [split; [discriminate|intros N; exfalso; apply N; eauto]|auto].
    + split; [split; [intros _ (g & _ & N); discriminate|reflexivity]|intros (g & _ & N); discriminate].
  - rewrite F3. cbn [is_some]. split; [split; [intros _ (g & _ & N); discriminate|reflexivity]|intros (g & _ & N); discriminate].
  - apply gf_find_spec in F4. rewrite F4. cbn [is_some].
    split; [split; [intros _ (h & N & [= <-]); congruence|reflexivity]|intros (h & N & [= <-]); congruence].
Qed.
Print Assumptions C08_refuted.
Print Assumptions C08_exact_partial.
Example C08_case : accepted LangTagT (bs "fr-FR") /\ ~ one_of regular_tags (bs "fr-FR") /\
  accepted LangTagT (bs "ZH-min") /\ one_of regular_tags (bs "ZH-min").
Proof.
  split; [vm_compute; reflexivity|]. split.
  - intros (x & X & E). cbn [In regular_tags] in X.
    repeat (destruct X as [<-|X]; [vm_compute in E; discriminate|]). destruct X.
  - split; [vm_compute; reflexivity|]. exists "zh-min"%string. split; [cbn; auto 10|vm_compute; reflexivity].
Qed.

(** * C47: inclusions between the types *)

Theorem C47_inclusions : forall s,
  (accepted NormalLangTagT s -> accepted LangTagT s) /\
  (accepted PrivateUseT s -> accepted LangTagT s) /\
  (accepted LanguageT s -> accepted NormalLangTagT s) /\
  (accepted PrimaryLanguageT s -> accepted LanguageT s) /\
  (accepted ScriptT s -> accepted LanguageT s) /\
  (accepted ExtendedLangTagT s -> accepted LanguageExtensionT s) /\
  (accepted ExtendedLangTagT s -> accepted PrimaryLanguageT s) /\
  (accepted VariantT s -> accepted VariantsT s) /\
  (accepted ExtensionT s -> accepted ExtensionsT s) /\
  (accepted ExtensionSubtagT s -> accepted PrivateUseSubtagT s) /\
  (accepted VariantT s -> accepted ExtensionSubtagT s).
Proof. exact inclusions. Qed.
Theorem C47_langtag_cases : forall s, accepted LangTagT s <->
  accepted NormalLangTagT s \/ accepted PrivateUseT s \/ one_of irregular_tags s.
Proof.
  intros s. split; [apply tag_cases|].
  intros [H|[H|H]]; [apply accepted_normal_tag, H|apply accepted_private_tag, H|apply irregular_tag, H].
Qed.
Print Assumptions C47_inclusions.
Print Assumptions C47_langtag_cases.
Example C47_case : accepted ScriptT (bs "Latn") /\ accepted LanguageT (bs "Latn") /\
  accepted NormalLangTagT (bs "Latn") /\ accepted LangTagT (bs "Latn").
Proof. repeat split; vm_compute; reflexivity. Qed.
