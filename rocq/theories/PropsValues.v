(** Properties C32, C34, C37, C43 and C44: unchecked values, grandfathered languages, termination, display. *)
From Verif Require Import Terminate.
From Verif Require Import Base GrammarRs Validate Utils Grandfathered Normal LangTag Newtypes Derived Spec Observe
  Accept AcceptTag Case Iter Kind Grammar Order Values More Samples.

(** * C32: false of [private_use] (with extensions) and of [Language::primary] (4 to 8 letters). *)

Definition C32_statement : Prop :=
  (forall s t, is_tag s t ->
     (forall l, NormalLangTag_language s = Ret l -> accepted LanguageT l) /\
     (forall c, NormalLangTag_script s = Ret (Some c) -> accepted ScriptT c) /\
     (forall r, NormalLangTag_region s = Ret (Some r) -> accepted RegionT r) /\
     (forall v, NormalLangTag_variants s = Ret v -> accepted VariantsT v) /\
     (forall e, NormalLangTag_extensions s = Ret e -> accepted ExtensionsT e) /\
     (forall p, NormalLangTag_private_use s = Ret (Some p) -> accepted PrivateUseT p)) /\
  (forall s, accepted LanguageT s -> accepted PrimaryLanguageT (Language_primary s)).
Theorem C32_refuted : ~ C32_statement.
Proof.
  intros [_ H]. specialize (H (bs "abcd") eq_refl). vm_compute in H. discriminate.
Qed.
Theorem C32_private_use_refuted :
  ~ (forall s t p, is_tag s t -> NormalLangTag_private_use s = Ret (Some p) -> accepted PrivateUseT p).
Proof.
  intros H. specialize (H _ _ (bs "a-ext-b-ext1-ext2") ext_is_tag). vm_compute in H. specialize (H eq_refl). discriminate.
Qed.
(** All the others hold, and these two exactly without extensions and up to three letters. *)
Theorem C32_accessors_partial : forall s t, is_tag s t ->
  (forall l, NormalLangTag_language s = Ret l -> accepted LanguageT l) /\
  (forall c, NormalLangTag_script s = Ret (Some c) -> accepted ScriptT c) /\
  (forall r, NormalLangTag_region s = Ret (Some r) -> accepted RegionT r) /\
  (forall v, NormalLangTag_variants s = Ret v -> accepted VariantsT v) /\
  (forall e, NormalLangTag_extensions s = Ret e -> accepted ExtensionsT e) /\
  (forall p, NormalLangTag_private_use s = Ret (Some p) -> (accepted PrivateUseT p <-> t_extensions t = [])) /\
  (forall k rs x, (let! it := NormalLangTag_private_use_subtags s in calls PrivateUseIter_next k it) = Ret rs ->
     In (Some x) rs -> accepted PrivateUseSubtagT x).
Proof. exact accessors_valid. Qed.
Theorem C32_language_partial : forall s, accepted LanguageT s ->
  (exists l, language_ok l = true /\ s = language_text l /\
     (accepted PrimaryLanguageT (Language_primary s) <-> length (l_primary l) <= 3)) /\
  (forall x, Language_extension s = Some x -> accepted LanguageExtensionT x) /\
  (forall k rs x, calls LanguageExtensionIter_next k (Language_extension_subtags s) = Ret rs -> In (Some x) rs ->
     accepted ExtendedLangTagT x).
Proof. exact language_parts_valid. Qed.
Theorem C32_items :
  (forall v ops rs x, accepted VariantsT v ->
     calls_de VariantsIter_next VariantsIter_next_back ops (Variants_iter v) = Ret rs -> In (Some x) rs ->
     accepted VariantT x) /\
  (forall e k rs x, accepted ExtensionT e ->
     calls ExtensionIter_next k (Extension_iter e) = Ret rs -> In (Some x) rs -> accepted ExtensionSubtagT x) /\
  (forall e k rs x, accepted ExtensionsT e ->
     calls ExtensionsIter_next k (Extensions_iter e) = Ret rs -> In (Some x) rs -> accepted ExtensionT x) /\
  (forall e c x, accepted ExtensionsT e -> Extensions_get e c = Ret (Some x) -> accepted ExtensionT x) /\
  (forall p k rs x, accepted PrivateUseT p ->
     calls PrivateUseIter_next k (PrivateUse_iter p) = Ret rs -> In (Some x) rs -> accepted PrivateUseSubtagT x) /\
  (forall e k rs x, accepted LanguageExtensionT e ->
     calls LanguageExtensionIter_next k (LanguageExtension_iter e) = Ret rs -> In (Some x) rs ->
     accepted ExtendedLangTagT x).
Proof.
  split; [exact variants_items_valid|]. split; [exact extension_items_valid|]. split; [exact extensions_items_valid|].
  split; [exact get_valid|]. split; [exact private_items_valid|exact extlang_items_valid].
Qed.
Theorem C32_constants : accepted VariantsT Variants_EMPTY /\ accepted ExtensionsT Extensions_EMPTY /\
  forall g l, Grandfathered_language g = Some l -> accepted LanguageT l /\ accepted PrimaryLanguageT l.
Proof. exact constants_valid. Qed.
Print Assumptions C32_refuted.
Print Assumptions C32_private_use_refuted.
Print Assumptions C32_accessors_partial.
Print Assumptions C32_language_partial.
Print Assumptions C32_items.
Print Assumptions C32_constants.
Example C32_case : is_tag full_text full_tag /\ NormalLangTag_extensions full_text = Ret (bs "a-foo-b-bar-Baz") /\
  accepted ExtensionsT (bs "a-foo-b-bar-Baz") /\ accepted LanguageT (bs "zh-cmn") /\
  accepted PrimaryLanguageT (Language_primary (bs "zh-cmn")).
Proof. split; [exact full_is_tag|]. repeat split; vm_compute; reflexivity. Qed.

(** * C34: false of no-bok, no-nyn, zh-min and zh-min-nan, whose normal reading has extlangs. *)

Definition C34_statement : Prop := forall g,
  (Grandfathered_language g = None <-> one_of irregular_tags (Grandfathered_as_bytes g)) /\
  (one_of regular_tags (Grandfathered_as_bytes g) ->
   exists l, LangTag_language (Grandfathered_as_bytes g) = Ret (Some l) /\ Grandfathered_language g = Some l).
Theorem C34_refuted : ~ C34_statement.
Proof.
  intros H. destruct (H NoBok) as [_ I]. destruct I as (l & E & G).
  - exists "no-bok"%string. split; [cbn; auto 10|vm_compute; reflexivity].
  - vm_compute in E, G. congruence.
Qed.
Theorem C34_partial : forall s g, Grandfathered_new s = Ret (Ok g) ->
  (Grandfathered_language g = None <-> one_of irregular_tags s) /\
  (one_of regular_tags s ->
   exists l l0, LangTag_language s = Ret (Some l) /\ Grandfathered_language g = Some l0 /\
     same_ci (Language_primary l) l0 /\
     (same_ci l l0 <-> g <> NoBok /\ g <> NoNyn /\ g <> ZhMin /\ g <> ZhMinNan)).
Proof.
  intros s g G. apply grandfathered_parse in G. split.
  - rewrite language_none_irregular. unfold one_of, same_ci in *. rewrite G. reflexivity.
  - intros R. assert (I : gf_irregular g = false).
    { apply one_of_regular in R as (h & H & E). unfold same_ci in *.
      assert (same_ci (Grandfathered_as_bytes h) (Grandfathered_as_bytes g)) as E' by (unfold same_ci; congruence).
      destruct g, h; try reflexivity; try discriminate H; vm_compute in E'; discriminate. }
    destruct (regular_language_ci s g I G) as (l & l0 & A & B & C & D). exists l, l0.
    split; [exact A|]. split; [exact B|]. split; [exact C|]. rewrite D.
    destruct g; cbn; intuition congruence.
Qed.
Print Assumptions C34_refuted.
Print Assumptions C34_partial.
Example C34_case : Grandfathered_new (bs "ZH-Hakka") = Ret (Ok ZhHakka) /\
  LangTag_language (bs "ZH-Hakka") = Ret (Some (bs "ZH")) /\ Grandfathered_language ZhHakka = Some (bs "zh") /\
  LangTag_language (bs "zh-min-nan") = Ret (Some (bs "zh-min-nan")) /\ Grandfathered_language ZhMinNan = Some (bs "zh").
Proof. repeat split; vm_compute; reflexivity. Qed.

(** * C37: the fuel given to each loop, the length of its input (one more for [cmp]), always suffices. *)

Theorem C37_normal : forall s,
  terminates (NormalLangTag_language s) /\ terminates (NormalLangTag_script s) /\
  terminates (NormalLangTag_region s) /\ terminates (NormalLangTag_variants s) /\
  terminates (NormalLangTag_extensions s) /\ terminates (NormalLangTag_private_use s) /\
  terminates (NormalLangTag_private_use_subtags s).
Proof.
  intros s. split; [apply Terminate.t_language|]. split; [apply Terminate.t_script|]. split; [apply Terminate.t_region|].
  split; [apply Terminate.t_variants|]. split; [apply Terminate.t_extensions|]. split; [apply t_private_use|apply t_private_use_subtags].
Qed.
Theorem C37_langtag : forall s,
  terminates (LangTag_as_typed s) /\ terminates (LangTag_kind s) /\ terminates (LangTag_language s) /\
  terminates (LangTag_script s) /\ terminates (LangTag_region s) /\ terminates (LangTag_variants s) /\
  terminates (LangTag_extensions s) /\ terminates (LangTag_private_use s) /\
  terminates (LangTag_private_use_subtags s).
Proof. exact t_langtag. Qed.
Theorem C37_others :
  (forall ty s, terminates (new_of ty s)) /\ (forall s, terminates (Grandfathered_new s)) /\
  (forall d A s, advances d -> terminates (validate_with d A s)) /\
  (forall ty a b, terminates (eq_of ty a b) /\ terminates (cmp_of ty a b)) /\
  (forall s c, terminates (Extensions_get s c)) /\
  (forall it, terminates (PrivateUseIter_next it) /\ terminates (ExtensionIter_next it) /\
     terminates (LanguageExtensionIter_next it) /\ terminates (ExtensionsIter_next it)) /\
  (forall it, terminates (VariantsIter_next it) /\ terminates (VariantsIter_next_back it)).
Proof.
  split; [intros ty s; apply t_new|]. split; [exact t_grandfathered|]. split; [exact t_validate_with|].
  split; [intros ty a b; rewrite eq_of_ci, cmp_of_ci; split; discriminate|]. split; [exact t_get|].
  rewrite PrivateUseIter_next_eq, ExtensionIter_next_eq, LanguageExtensionIter_next_eq.
  split; intros it; [repeat split; try apply t_segment_next; apply t_extensions_next|].
  split; [apply t_variants_next|apply t_variants_next_back].
Qed.
Print Assumptions C37_normal.
Print Assumptions C37_langtag.
Print Assumptions C37_others.
Example C37_case : advances decode_utf8_char /\ NormalLangTag_region (bs "--a-") = Ret None /\
  Extensions_get (bs "----") "-"%byte = Ret (Some (bs "--")).
Proof. split; [exact decode_advances|split; vm_compute; reflexivity]. Qed.

(** * C43: display *)

Theorem C43_singleton : forall b, Singleton_new b = Ok b ->
  Singleton_to_string b = [b] /\ Singleton_from_string (Singleton_to_string b) = Ret (Ok b) /\
  Singleton_from_str (Singleton_to_string b) = Ret (Ok b).
Proof.
  intros b E. assert (O : singleton_ok b = true).
  { destruct (singleton_ok b) eqn:O; [reflexivity|]. destruct (singleton_constructors b) as (_ & _ & F).
    rewrite (proj1 (F O)) in E. discriminate. }
  destruct (singleton_display b O) as [A B]. split; [exact A|]. split; [exact B|].
  rewrite A. apply (singleton_constructors b), O.
Qed.
Theorem C43_grandfathered : forall g,
  Grandfathered_to_string g = Grandfathered_as_bytes g /\ Grandfathered_as_str g = Grandfathered_as_bytes g /\
  Grandfathered_new (Grandfathered_to_string g) = Ret (Ok g) /\ accepted LangTagT (Grandfathered_to_string g).
Proof.
  intros g. split; [reflexivity|]. split; [reflexivity|]. split; [apply grandfathered_parse; reflexivity|].
  destruct g; vm_compute; reflexivity.
Qed.
Print Assumptions C43_singleton.
Print Assumptions C43_grandfathered.
Example C43_case : Singleton_new "u"%byte = Ok "u"%byte /\ Grandfathered_to_string SgnBeFr = bs "sgn-BE-FR".
Proof. split; vm_compute; reflexivity. Qed.

(** * C44: the macro [langtag!] *)

Theorem C44_langtag_macro : forall s,
  (matches abnf_Language_Tag s /\ langtag_macro s = Ret s) \/
  (~ matches abnf_Language_Tag s /\ langtag_macro s = Panic).
Proof. intros s. pose proof (langtag_macro_spec s) as H. rewrite accepted_tag in H. exact H. Qed.
Print Assumptions C44_langtag_macro.
Example C44_case : langtag_macro (bs "fr-FR") = Ret (bs "fr-FR") /\ langtag_macro (bs "fr_FR") = Panic.
Proof. split; vm_compute; reflexivity. Qed.
