(** Values built without validation (C32), singletons (C33), grandfathered languages (C34), extension lookup and
    letter case (C28), the macro and the [Display] implementations. *)
From Verif Require Import Base GrammarRs Validate Utils Grandfathered Normal LangTag Newtypes Derived Spec Observe
  RegexEquiv Accept AcceptTag Case CaseTag Direct Parse Scan Access Iter Kind Grammar Parts Compose Order.

(** * 1. Accepted values and their parts *)

Lemma accepted_script s : accepted ScriptT s <-> script_ok s = true.
Proof. exact (decides_ok _ _ s (proj1 (proj2 (proj2 (proj2 (proj2 (proj2 (proj2 (proj2 direct_decided))))))))). Qed.
Lemma accepted_region s : accepted RegionT s <-> region_ok s = true.
Proof. exact (decides_ok _ _ s (proj1 (proj2 (proj2 (proj2 (proj2 (proj2 (proj2 (proj2 (proj2 direct_decided)))))))))). Qed.
Lemma accepted_variant s : accepted VariantT s <-> variant_ok s = true.
Proof. exact (decides_ok _ _ s (proj1 (proj2 (proj2 (proj2 (proj2 (proj2 (proj2 (proj2 (proj2 (proj2 direct_decided))))))))))). Qed.
Lemma accepted_extlang_tag s : accepted ExtendedLangTagT s <-> extlang_tag_ok s = true.
Proof. exact (decides_ok _ _ s (proj1 (proj2 (proj2 (proj2 (proj2 (proj2 (proj2 direct_decided)))))))). Qed.
Lemma accepted_primary s : accepted PrimaryLanguageT s <-> primary_ok s = true.
Proof. exact (decides_ok _ _ s (proj1 (proj2 (proj2 (proj2 (proj2 direct_decided)))))). Qed.
Lemma accepted_ext_subtag s : accepted ExtensionSubtagT s <-> ext_subtag_ok s = true.
Proof. exact (decides_ok _ _ s (proj1 (proj2 (proj2 (proj2 (proj2 (proj2 (proj2 (proj2 (proj2 (proj2 (proj2 (proj2 (proj2 direct_decided)))))))))))))). Qed.
Lemma accepted_pu_subtag s : accepted PrivateUseSubtagT s <-> pu_subtag_ok s = true.
Proof. exact (decides_ok _ _ s (proj1 (proj2 direct_decided))). Qed.
Lemma accepted_language s : accepted LanguageT s <-> has_text language_ok language_text s.
Proof. exact (decides_ok _ _ s (proj1 (proj2 (proj2 (proj2 direct_decided))))). Qed.
Lemma accepted_extlang s : accepted LanguageExtensionT s <-> has_text extlangs_ok join s.
Proof. exact (decides_ok _ _ s (proj1 (proj2 (proj2 (proj2 (proj2 (proj2 direct_decided))))))). Qed.
Lemma accepted_variants s : accepted VariantsT s <-> has_text variants_ok join s.
Proof. exact (decides_ok _ _ s (proj1 (proj2 (proj2 (proj2 (proj2 (proj2 (proj2 (proj2 (proj2 (proj2 (proj2 direct_decided)))))))))))). Qed.
Lemma accepted_extension s : accepted ExtensionT s <-> has_text extension_ok extension_text s.
Proof. exact (decides_ok _ _ s (proj1 (proj2 (proj2 (proj2 (proj2 (proj2 (proj2 (proj2 (proj2 (proj2 (proj2 (proj2 direct_decided))))))))))))). Qed.
Lemma accepted_extensions s : accepted ExtensionsT s <-> has_text extensions_ok extensions_text s.
Proof. exact (decides_ok _ _ s (proj2 (proj2 (proj2 (proj2 (proj2 (proj2 (proj2 (proj2 (proj2 (proj2 (proj2 (proj2 (proj2 direct_decided)))))))))))))). Qed.
Lemma accepted_private s : accepted PrivateUseT s <-> has_text private_ok private_text s.
Proof. exact (decides_ok _ _ s (proj1 direct_decided)). Qed.
Lemma accepted_normal s : accepted NormalLangTagT s <-> exists t, is_tag s t.
Proof. exact (decides_ok _ _ s (proj1 (proj2 (proj2 direct_decided)))). Qed.

(** * 2. Values built with new_unchecked *)

Lemma in_expected_next {A} (l : list A) x : forall k, In (Some x) (expected_next k l) -> In x l.
Proof.
  induction l as [|y l IH]; intros k.
  - induction k as [|k IHk]; cbn [expected_next]; intros H; [destruct H|].
    destruct H as [H|H]; [discriminate|]. apply IHk, H.
  - destruct k as [|k]; cbn [expected_next]; intros H; [destruct H|]. destruct H as [H|H].
    + injection H as ->. left. reflexivity.
    + right. eapply IH, H.
Qed.

Lemma pop_back_in {A} (l : list A) : forall x l', pop_back l = (Some x, l') -> In x l /\ forall y, In y l' -> In y l.
Proof.
  induction l as [|y l IH]; intros x l' E; [discriminate|]. cbn [pop_back] in E. destruct l as [|z l].
  - injection E as <- <-. split; [left; reflexivity|intros w []].
  - destruct (pop_back (z :: l)) as [r l''] eqn:P. injection E as -> <-.
    destruct (IH x l'' eq_refl) as [A1 A2]. split; [right; exact A1|].
    intros w [<-|W]; [left; reflexivity|right; apply A2, W].
Qed.

Lemma pop_back_none {A} (l : list A) l' : pop_back l = (None, l') -> l = [].
Proof.
  destruct l as [|y l]; [reflexivity|]. intros E. exfalso. revert y l' E.
  induction l as [|z l IH]; intros y l' E; cbn [pop_back] in E; [discriminate|].
  destruct (match l with [] => (Some z, []) | _ :: _ => let (r, l'') := pop_back l in (r, z :: l'') end)
    as [r l''] eqn:P. injection E as -> _. eapply IH. cbn [pop_back]. exact P.
Qed.

Lemma in_deque_run {A} ops x : forall (l : list A), In (Some x) (deque_run ops l) -> In x l.
Proof.
  induction ops as [|op ops IH]; intros l H; [destruct H|]. destruct op; cbn [deque_run] in H.
  - destruct l as [|y l]; cbn [pop_front] in H; destruct H as [H|H].
    + discriminate.
    + apply IH in H. destruct H.
    + injection H as ->. left. reflexivity.
    + right. apply IH, H.
  - destruct (pop_back l) as [[y|] l'] eqn:P; destruct H as [H|H].
    + injection H as ->. apply pop_back_in in P as [P _]. exact P.
    + apply pop_back_in in P as [_ P]. apply P, IH, H.
    + discriminate.
    + pose proof (pop_back_none _ _ P) as ->. cbn in P. injection P as <-. apply IH in H. destruct H.
Qed.

Lemma in_forallb {A} (p : A -> bool) l x : forallb p l = true -> In x l -> p x = true.
Proof. intros F. apply forallb_forall. exact F. Qed.

(** The private use value is valid exactly when the tag has no extension. *)
Lemma not_private_singleton b l : singleton_ok b = true -> ~ has_text private_ok private_text (join ([b] :: l)).
Proof.
  intros Sb (p & P & E). unfold private_text, private_parts in E. rewrite !join_cons in E. injection E as E _.
  unfold private_ok in P. apply andb_true_iff in P as [P _]. apply andb_true_iff in P as [P _].
  rewrite <- E in P. unfold singleton_ok in Sb. apply andb_true_iff in Sb as [Sb S2].
  apply andb_true_iff in Sb as [_ S1]. destruct (beq b "x"%byte), (beq b "X"%byte); discriminate.
Qed.

Lemma private_use_valid s t p : is_tag s t -> NormalLangTag_private_use s = Ret (Some p) ->
  (accepted PrivateUseT p <-> t_extensions t = []).
Proof.
  intros T E. rewrite (private_use_exact s t T) in E. destruct (ends_by_region t); [discriminate|].
  destruct (ends_by_variants t) eqn:V; [discriminate|]. injection E as <-. rewrite accepted_private.
  destruct T as [T _]. apply tag_ok_parts in T as (_ & _ & _ & _ & Te & Tp). unfold rest_subtags.
  unfold ends_by_variants in V. destruct (t_extensions t) as [|[b l] es].
  - split; [reflexivity|]. intros _. destruct (t_private t) as [p|]; [|discriminate V].
    exists p. split; [exact Tp|reflexivity].
  - split; [|discriminate]. intros H. exfalso. revert H. cbn [flat_map app extension_parts e_singleton e_subtags].
    apply not_private_singleton. cbn [extensions_ok forallb] in Te. apply andb_true_iff in Te as [Te _].
    apply extension_ok_parts in Te. apply Te.
Qed.

Lemma pu_subtag_seg x : pu_subtag_ok x = seg_ok x.
Proof. reflexivity. Qed.

Lemma rest_segs t : tag_ok t = true -> forallb seg_ok (rest_subtags t) = true.
Proof.
  intros T. apply tag_segs in T. cbn [forallb] in T. rewrite !andb_true_iff in T.
  unfold rest_subtags. rewrite forallb_app. rewrite !andb_true_iff. tauto.
Qed.

Lemma private_use_subtags_valid s t k rs x : is_tag s t ->
  (let! it := NormalLangTag_private_use_subtags s in calls PrivateUseIter_next k it) = Ret rs ->
  In (Some x) rs -> accepted PrivateUseSubtagT x.
Proof.
  intros T E I. rewrite (private_use_subtags_exact s t k T) in E. destruct (ends_by_region t); [discriminate|].
  injection E as <-. apply in_expected_next in I. apply accepted_pu_subtag. rewrite pu_subtag_seg.
  destruct T as [T _]. apply rest_segs in T. apply (in_forallb _ _ _ T).
  destruct (rest_subtags t); [destruct I|right; exact I].
Qed.

Lemma accessors_valid s t : is_tag s t ->
  (forall l, NormalLangTag_language s = Ret l -> accepted LanguageT l) /\
  (forall c, NormalLangTag_script s = Ret (Some c) -> accepted ScriptT c) /\
  (forall r, NormalLangTag_region s = Ret (Some r) -> accepted RegionT r) /\
  (forall v, NormalLangTag_variants s = Ret v -> accepted VariantsT v) /\
  (forall e, NormalLangTag_extensions s = Ret e -> accepted ExtensionsT e) /\
  (forall p, NormalLangTag_private_use s = Ret (Some p) -> (accepted PrivateUseT p <-> t_extensions t = [])) /\
  (forall k rs x, (let! it := NormalLangTag_private_use_subtags s in calls PrivateUseIter_next k it) = Ret rs ->
     In (Some x) rs -> accepted PrivateUseSubtagT x).
Proof.
  intros T. pose proof (proj1 T) as O. apply tag_ok_parts in O as (Ol & Oc & Or & Ov & Oe & Op).
  split; [|split; [|split; [|split; [|split; [|split]]]]].
  - intros l E. rewrite (language_exact s t T) in E. injection E as <-. apply accepted_language. eexists. eauto.
  - intros c E. rewrite (script_exact s t T) in E. destruct (ends_by_language t); [discriminate|].
    injection E as E. rewrite E in Oc. apply accepted_script. exact Oc.
  - intros r E. rewrite (region_exact s t T) in E. destruct (ends_by_script t); [discriminate|].
    injection E as E. rewrite E in Or. apply accepted_region. exact Or.
  - intros v E. rewrite (variants_exact s t T) in E. destruct (ends_by_region t); [discriminate|].
    injection E as <-. apply accepted_variants. eexists. eauto.
  - intros e E. rewrite (extensions_exact s t T) in E. destruct (ends_by_variants t); [discriminate|].
    injection E as <-. apply accepted_extensions. eexists. eauto.
  - intros p. apply private_use_valid, T.
  - intros k rs x. apply (private_use_subtags_valid s t k rs x T).
Qed.

Lemma variants_items v ops : accepted VariantsT v -> exists l, variants_ok l = true /\ v = join l /\
  calls_de VariantsIter_next VariantsIter_next_back ops (Variants_iter v) = Ret (deque_run ops l).
Proof.
  intros A. apply accepted_variants in A as (l & L & ->). exists l. split; [exact L|]. split; [reflexivity|].
  apply variants_calls, Variants_iter_spec, L.
Qed.
Lemma variants_items_valid v ops rs x : accepted VariantsT v ->
  calls_de VariantsIter_next VariantsIter_next_back ops (Variants_iter v) = Ret rs -> In (Some x) rs ->
  accepted VariantT x.
Proof.
  intros A E I. destruct (variants_items v ops A) as (l & L & -> & E'). rewrite E' in E. injection E as <-.
  apply in_deque_run in I. apply accepted_variant. exact (in_forallb _ _ _ L I).
Qed.

Lemma extension_items_valid e k rs x : accepted ExtensionT e ->
  calls ExtensionIter_next k (Extension_iter e) = Ret rs -> In (Some x) rs -> accepted ExtensionSubtagT x.
Proof.
  intros A E I. apply accepted_extension in A as ([b l] & L & ->).
  rewrite ExtensionIter_next_eq, (segment_calls k _ _ (Extension_iter_spec _ L)) in E. injection E as <-.
  apply in_expected_next in I. apply extension_ok_parts in L as (_ & _ & L). apply accepted_ext_subtag.
  exact (in_forallb _ _ _ L I).
Qed.

Lemma extensions_items_valid e k rs x : accepted ExtensionsT e ->
  calls ExtensionsIter_next k (Extensions_iter e) = Ret rs -> In (Some x) rs -> accepted ExtensionT x.
Proof.
  intros A E I. apply accepted_extensions in A as (l & L & ->).
  rewrite (extensions_calls k _ _ (Extensions_iter_spec _ L)) in E. injection E as <-.
  apply in_expected_next in I. apply in_map_iff in I as (y & <- & I). apply accepted_extension. exists y.
  split; [|reflexivity]. exact (in_forallb _ _ _ L I).
Qed.

Lemma get_valid e c x : accepted ExtensionsT e -> Extensions_get e c = Ret (Some x) -> accepted ExtensionT x.
Proof.
  intros A E. apply accepted_extensions in A as (l & L & ->). rewrite (Extensions_get_spec l c L) in E.
  destruct (find _ l) as [y|] eqn:F; [|discriminate]. cbn [option_map] in E. injection E as <-.
  apply find_some in F as [F _]. apply accepted_extension. exists y. split; [|reflexivity].
  exact (in_forallb _ _ _ L F).
Qed.

Lemma private_items_valid p k rs x : accepted PrivateUseT p ->
  calls PrivateUseIter_next k (PrivateUse_iter p) = Ret rs -> In (Some x) rs -> accepted PrivateUseSubtagT x.
Proof.
  intros A E I. apply accepted_private in A as ([b l] & L & ->).
  rewrite PrivateUseIter_next_eq, (segment_calls k _ _ (PrivateUse_iter_spec _ L)) in E. injection E as <-.
  apply in_expected_next in I. unfold private_ok in L. apply andb_true_iff in L as [_ L]. apply accepted_pu_subtag.
  exact (in_forallb _ _ _ L I).
Qed.

Lemma extlang_items_valid e k rs x : accepted LanguageExtensionT e ->
  calls LanguageExtensionIter_next k (LanguageExtension_iter e) = Ret rs -> In (Some x) rs ->
  accepted ExtendedLangTagT x.
Proof.
  intros A E I. apply accepted_extlang in A as (l & L & ->).
  rewrite LanguageExtensionIter_next_eq, (segment_calls k _ _ (LanguageExtension_iter_spec _ L)) in E.
  injection E as <-. apply in_expected_next in I. unfold extlangs_ok in L. apply andb_true_iff in L as [_ L].
  apply accepted_extlang_tag. exact (in_forallb _ _ _ L I).
Qed.

Lemma primary_valid l : language_ok l = true ->
  (accepted PrimaryLanguageT (Language_primary (language_text l)) <-> length (l_primary l) <= 3).
Proof.
  intros L. rewrite (Language_primary_spec l L), accepted_primary. unfold language_ok in L.
  apply orb_true_iff in L as [L|L].
  - rewrite !andb_true_iff in L. destruct L as [[L _] _]. split; [|intros _; exact L].
    intros _. unfold primary_ok in L. apply sized_spec in L. lia.
  - apply andb_true_iff in L as [L _]. apply sized_spec in L. unfold primary_ok. rewrite sized_spec. lia.
Qed.

Lemma language_parts_valid s : accepted LanguageT s ->
  (exists l, language_ok l = true /\ s = language_text l /\
     (accepted PrimaryLanguageT (Language_primary s) <-> length (l_primary l) <= 3)) /\
  (forall x, Language_extension s = Some x -> accepted LanguageExtensionT x) /\
  (forall k rs x, calls LanguageExtensionIter_next k (Language_extension_subtags s) = Ret rs -> In (Some x) rs ->
     accepted ExtendedLangTagT x).
Proof.
  intros A. apply accepted_language in A as (l & L & ->). pose proof (language_extlangs l L) as [X3 X4].
  split; [|split].
  - exists l. split; [exact L|]. split; [reflexivity|]. apply primary_valid, L.
  - intros x E. rewrite (Language_extension_spec l L) in E. apply accepted_extlang.
    destruct (l_extlangs l) as [|y ys]; [discriminate|]. injection E as <-. exists (y :: ys).
    split; [|reflexivity]. rewrite extlangs_ok_cons. apply andb_true_iff. split; [apply Nat.leb_le; exact X4|exact X3].
  - intros k rs x E I. rewrite LanguageExtensionIter_next_eq in E.
    rewrite (segment_calls k _ _ (Language_extension_subtags_spec l L)) in E. injection E as <-.
    apply in_expected_next in I. apply accepted_extlang_tag. exact (in_forallb _ _ _ X3 I).
Qed.

Lemma constants_valid : accepted VariantsT Variants_EMPTY /\ accepted ExtensionsT Extensions_EMPTY /\
  forall g l, Grandfathered_language g = Some l -> accepted LanguageT l /\ accepted PrimaryLanguageT l.
Proof.
  split; [|split].
  - apply accepted_variants. exists []. split; reflexivity.
  - apply accepted_extensions. exists []. split; reflexivity.
  - intros g l E. rewrite accepted_language, accepted_primary.
    assert (P : primary_ok l = true) by (destruct g; try discriminate; injection E as <-; reflexivity).
    split; [|exact P]. exists (Lang l []). split; [|reflexivity]. unfold language_ok. cbn [l_primary l_extlangs].
    rewrite P. reflexivity.
Qed.

(** * 3. Singletons *)

Lemma singleton_constructors b :
  (singleton_ok b = true <-> matches abnf_singleton [b]) /\
  (singleton_ok b = true ->
     Singleton_new b = Ok b /\ Singleton_try_from_u8 b = Ok b /\ Singleton_try_from_char (code b) = Ok b /\
     Singleton_from_string [b] = Ret (Ok b) /\ Singleton_from_str [b] = Ret (Ok b)) /\
  (singleton_ok b = false ->
     Singleton_new b = Err b /\ Singleton_try_from_u8 b = Err b /\ Singleton_try_from_char (code b) = Err (code b) /\
     ((code b < 128)%N -> Singleton_from_string [b] = Ret (Err [b]) /\ Singleton_from_str [b] = Ret (Err [b]))).
Proof.
  split; [apply byte_cases_singleton|].
  assert (C : Strings.Byte.of_N (code b) = Some b) by apply Strings.Byte.of_to_N.
  assert (F : (code b < 128)%N -> Singleton_from_string [b] = Ret (if singleton_ok b then Ok b else Err [b])).
  { intros L. rewrite Singleton_from_string_ascii; [reflexivity|]. unfold ascii. cbn [forallb].
    apply N.ltb_lt in L. rewrite L. reflexivity. }
  split; intros Hb.
  - unfold Singleton_try_from_u8. rewrite Singleton_new_spec, Singleton_try_from_char_spec, C, Hb.
    pose proof (singleton_ok_ascii b Hb) as L. specialize (F L). rewrite Hb in F.
    unfold Singleton_from_str. rewrite F. repeat split; reflexivity.
  - unfold Singleton_try_from_u8. rewrite Singleton_new_spec, Singleton_try_from_char_spec, C, Hb.
    split; [reflexivity|]. split; [reflexivity|]. split; [reflexivity|]. intros L. specialize (F L).
    rewrite Hb in F. unfold Singleton_from_str. rewrite F. split; reflexivity.
Qed.

Lemma singleton_char c : (256 <= c)%N -> Singleton_try_from_char c = Err c.
Proof.
  intros L. unfold Singleton_try_from_char. destruct (N.ltb_spec c 255); [lia|reflexivity].
Qed.

Lemma singleton_length s : length s <> 1 ->
  Singleton_from_string s = Ret (Err s) /\ Singleton_from_str s = Ret (Err s).
Proof.
  intros L. unfold Singleton_from_str, Singleton_from_string.
  destruct (Nat.eqb_spec (length s) 1); [contradiction|]. split; reflexivity.
Qed.

Lemma singleton_value b c : Singleton_unwrap b = b /\ (Singleton_eq_u8 b c = true <-> c = b) /\
  forall n, Singleton_eq_char b n = true <-> n = code b.
Proof.
  split; [reflexivity|]. split.
  - unfold Singleton_eq_u8. rewrite beq_true. split; auto.
  - intros n. unfold Singleton_eq_char. rewrite N.eqb_eq. split; auto.
Qed.

Lemma singleton_display b : singleton_ok b = true ->
  Singleton_to_string b = [b] /\ Singleton_from_string (Singleton_to_string b) = Ret (Ok b).
Proof.
  intros H. assert (E : Singleton_to_string b = [b]).
  { unfold Singleton_to_string, utf8_of_u8. pose proof (singleton_ok_ascii b H) as L. apply N.ltb_lt in L.
    rewrite L. reflexivity. }
  rewrite E. split; [reflexivity|]. apply (singleton_constructors b), H.
Qed.

(** * 4. Grandfathered tags *)

Lemma grandfathered_parse s g : Grandfathered_new s = Ret (Ok g) <-> same_ci s (Grandfathered_as_bytes g).
Proof.
  rewrite Grandfathered_new_spec, <- gf_find_spec. unfold gf_result.
  destruct (gf_find GRANDFATHERED s) as [h|]; split; intros E; try discriminate; congruence.
Qed.
Lemma grandfathered_reject s : (forall g, ~ same_ci s (Grandfathered_as_bytes g)) <-> Grandfathered_new s = Ret (Err s).
Proof.
  rewrite Grandfathered_new_spec. unfold gf_result. destruct (gf_find GRANDFATHERED s) as [h|] eqn:E; split.
  - intros H. exfalso. apply (H h). apply gf_find_spec, E.
  - discriminate.
  - reflexivity.
  - intros _ g H. apply gf_find_spec in H. congruence.
Qed.
Lemma grandfathered_texts :
  (forall g, gf_irregular g = true -> exists x, In x irregular_tags /\ Grandfathered_as_bytes g = bs x) /\
  (forall g, gf_irregular g = false -> exists x, In x regular_tags /\ Grandfathered_as_bytes g = bs x) /\
  (forall x, In x (irregular_tags ++ regular_tags) -> exists g, Grandfathered_as_bytes g = bs x).
Proof.
  pose proof gf_texts as [I R]. split; [|split].
  - intros g Hg. assert (H : In (Grandfathered_as_bytes g) (map bs irregular_tags)).
    { rewrite <- I. apply in_map. apply filter_In. split; [apply GRANDFATHERED_all|exact Hg]. }
    apply in_map_iff in H as (x & E & H). eauto.
  - intros g Hg. assert (H : In (Grandfathered_as_bytes g) (map bs regular_tags)).
    { rewrite <- R. apply in_map. apply filter_In. split; [apply GRANDFATHERED_all|rewrite Hg; reflexivity]. }
    apply in_map_iff in H as (x & E & H). eauto.
  - intros x H. apply in_app_iff in H as [H|H]; apply (in_map bs) in H; [rewrite <- I in H|rewrite <- R in H];
      apply in_map_iff in H as (g & E & _); eauto.
Qed.

Lemma language_none_irregular g : Grandfathered_language g = None <-> one_of irregular_tags (Grandfathered_as_bytes g).
Proof.
  rewrite one_of_irregular. split.
  - intros E. exists g. split; [destruct g; (reflexivity || discriminate)|reflexivity].
  - intros (h & I & E). apply gf_texts_distinct in E as ->. destruct h; (reflexivity || discriminate).
Qed.

(** The regular tags whose language differs from the one of their normal reading. *)
Definition odd_regular (g : grandfathered) : bool :=
  match g with NoBok | NoNyn | ZhMin | ZhMinNan => true | _ => false end.

Lemma regular_language g : gf_irregular g = false ->
  exists l l0, LangTag_language (Grandfathered_as_bytes g) = Ret (Some l) /\ Grandfathered_language g = Some l0 /\
    Language_primary l = l0 /\ (l = l0 <-> odd_regular g = false) /\ Language_primary l0 = l0.
Proof.
  destruct g; try discriminate; intros _; do 2 eexists; (split; [vm_compute; reflexivity|]);
    (split; [reflexivity|]); (split; [reflexivity|]); (split; [|reflexivity]); split; (reflexivity || discriminate).
Qed.

Lemma split_once_lower s : split_once (map lower s) =
  option_map (fun pq => (map lower (fst pq), map lower (snd pq))) (split_once s).
Proof.
  induction s as [|b s IH]; [reflexivity|]. cbn [map split_once].
  assert (E : beq (lower b) dash = beq b dash).
  { destruct (beq b dash) eqn:B.
    - apply beq_true in B. subst b. reflexivity.
    - apply beq_false. apply beq_false in B. intros H. apply B, lower_dash, H. }
  rewrite E. destruct (beq b dash); [reflexivity|]. rewrite IH. destruct (split_once s) as [[p q]|]; reflexivity.
Qed.
Lemma primary_ci a b : same_ci a b -> same_ci (Language_primary a) (Language_primary b).
Proof.
  intros E. unfold same_ci in E. apply (f_equal split_once) in E as F. rewrite !split_once_lower in F.
  unfold Language_primary, same_ci. destruct (split_once a) as [[p q]|], (split_once b) as [[p' q']|];
    cbn [option_map fst snd] in F; try discriminate; [injection F; auto|exact E].
Qed.
Lemma extension_ci a b : same_ci a b -> same_opt (Language_extension a) (Language_extension b).
Proof.
  intros E. unfold same_ci in E. apply (f_equal split_once) in E. rewrite !split_once_lower in E.
  unfold Language_extension. destruct (split_once a) as [[p q]|], (split_once b) as [[p' q']|];
    cbn [option_map fst snd] in E; try discriminate; cbn [same_opt]; [injection E; auto|exact I].
Qed.

Lemma normal_language_ci s s' t t' : is_tag s t -> is_tag s' t' -> same_ci s s' ->
  same_outcome same_opt (LangTag_language s) (LangTag_language s').
Proof.
  intros T T' E. pose proof (accessors_case s s' t t' T T' E) as (H & _).
  rewrite (proj1 (LangTag_normal s t T)), (proj1 (LangTag_normal s' t' T')).
  destruct (NormalLangTag_language s), (NormalLangTag_language s'); exact H.
Qed.

Lemma regular_language_ci s g : gf_irregular g = false -> same_ci s (Grandfathered_as_bytes g) ->
  exists l l0, LangTag_language s = Ret (Some l) /\ Grandfathered_language g = Some l0 /\
    same_ci (Language_primary l) l0 /\ (same_ci l l0 <-> odd_regular g = false).
Proof.
  intros I E. pose proof (gf_langtag_ci s g E) as A. pose proof (gf_langtag g) as A'. rewrite I in A, A'.
  apply langtag_is_tag in A as (t & T). apply langtag_is_tag in A' as (t' & T').
  pose proof (normal_language_ci _ _ _ _ T T' E) as H. destruct (regular_language g I) as (l & l0 & L & G & P & Q & P0).
  rewrite L in H. destruct (LangTag_language s) as [[l1|]| |]; cbn [same_outcome same_opt] in H; try contradiction.
  exists l1, l0. split; [reflexivity|]. split; [exact G|]. split.
  - rewrite <- P. apply primary_ci, H.
  - rewrite <- Q. split.
    + intros J. assert (K : same_ci l l0) by exact (same_ci_trans _ _ _ (same_ci_sym _ _ H) J).
      clear - K L G. destruct g; try discriminate; injection G as <-;
        vm_compute in L; injection L as <-; (reflexivity || (vm_compute in K; discriminate)).
    + intros ->. exact H.
Qed.

(** * 5. Extension lookup and letter case *)

Lemma extension_singleton_spec e : accepted ExtensionT e ->
  exists b x, e = b :: x /\ singleton_ok b = true /\ Extension_singleton e = Ret b.
Proof.
  intros A. apply accepted_extension in A as ([b l] & L & ->). apply extension_ok_parts in L as (L & _).
  unfold extension_text, extension_parts. cbn [e_singleton e_subtags]. rewrite join_cons. cbn [app].
  exists b, (dtail l). repeat split; auto.
Qed.

Lemma extension_singleton_ci e e' : accepted ExtensionT e -> accepted ExtensionT e' -> same_ci e e' ->
  exists b b', Extension_singleton e = Ret b /\ Extension_singleton e' = Ret b' /\ lower b = lower b'.
Proof.
  intros A A' E. destruct (extension_singleton_spec e A) as (b & x & -> & _ & ->).
  destruct (extension_singleton_spec e' A') as (b' & x' & -> & _ & ->). exists b, b'.
  apply same_ci_cons in E as [E _]. auto.
Qed.

Lemma extensions_text_inj l l' : extensions_ok l = true -> extensions_ok l' = true ->
  extensions_text l = extensions_text l' -> l = l'.
Proof.
  intros L L' E. rewrite <- (group_extensions l L), <- (group_extensions l' L'). f_equal.
  unfold extensions_text in E. pose proof (segs_extensions l L) as G. pose proof (segs_extensions l' L') as G'.
  set (p := flat_map extension_parts l) in *. set (p' := flat_map extension_parts l') in *. clearbody p p'.
  destruct p as [|x p], p' as [|x' p']; auto.
  - exfalso. symmetry in E. apply (f_equal (@length byte)) in E. change (length (join [])) with 0 in E.
    assert (N : x' :: p' <> []) by discriminate. pose proof (join_length _ N G'). lia.
  - exfalso. apply (f_equal (@length byte)) in E. change (length (join [])) with 0 in E.
    assert (N : x :: p <> []) by discriminate. pose proof (join_length _ N G). lia.
  - apply join_inj; auto using segs_dash_free; discriminate.
Qed.

Lemma extensions_ci l l' : extensions_ok l = true -> extensions_ok l' = true ->
  same_ci (extensions_text l) (extensions_text l') -> map lower_extension l = map lower_extension l'.
Proof.
  intros L L' E. unfold same_ci in E. rewrite !lower_extensions_text in E. apply extensions_text_inj; auto.
  - unfold extensions_ok. rewrite forallb_map. erewrite forallb_ext; [exact L|]. intros e. apply lower_extension_ok.
  - unfold extensions_ok. rewrite forallb_map. erewrite forallb_ext; [exact L'|]. intros e. apply lower_extension_ok.
Qed.

(** A digit singleton: lookup ignores letter case. *)
Lemma digit_lower b c : is_digit c = true -> beq b c = beq (lower b) c.
Proof.
  intros D. destruct (beq b c) eqn:E.
  - apply beq_true in E as ->. symmetry. apply beq_true. destruct c; try discriminate; reflexivity.
  - symmetry. apply beq_false. apply beq_false in E. intros H. apply E. clear E. subst c.
    destruct b; try discriminate; reflexivity.
Qed.

Lemma find_lower c l : is_digit c = true ->
  option_map lower_extension (find (fun e => beq (e_singleton e) c) l) =
  find (fun e => beq (e_singleton e) c) (map lower_extension l).
Proof.
  intros D. induction l as [|e l IH]; [reflexivity|]. cbn [find map]. cbn [lower_extension e_singleton].
  rewrite <- (digit_lower _ _ D). destruct (beq (e_singleton e) c); [reflexivity|exact IH].
Qed.

Lemma get_ci_digit e e' c : accepted ExtensionsT e -> accepted ExtensionsT e' -> same_ci e e' -> is_digit c = true ->
  same_outcome same_opt (Extensions_get e c) (Extensions_get e' c).
Proof.
  intros A A' E D. apply accepted_extensions in A as (l & L & ->). apply accepted_extensions in A' as (l' & L' & ->).
  rewrite (Extensions_get_spec l c L), (Extensions_get_spec l' c L').
  pose proof (extensions_ci l l' L L' E) as M. pose proof (find_lower c l D) as F. pose proof (find_lower c l' D) as F'.
  rewrite M in F. rewrite <- F' in F.
  destruct (find _ l) as [x|], (find _ l') as [x'|]; cbn [option_map] in F |- *; try discriminate; [|exact I].
  cbn [same_outcome same_opt]. unfold same_ci. rewrite !lower_extension_text. congruence.
Qed.

(** Whether some case variant of a singleton is found does not depend on letter case. *)
Lemma exists_get l c : extensions_ok l = true ->
  (exists c' x, lower c' = lower c /\ Extensions_get (extensions_text l) c' = Ret (Some x)) <->
  exists e, In e (map lower_extension l) /\ e_singleton e = lower c.
Proof.
  intros L. split.
  - intros (c' & x & E & G). rewrite (Extensions_get_spec l c' L) in G.
    destruct (find _ l) as [y|] eqn:F; [|discriminate]. apply find_some in F as [F1 F2]. apply beq_true in F2.
    exists (lower_extension y). split; [apply in_map, F1|]. cbn [lower_extension e_singleton]. congruence.
  - intros (e & I & E). apply in_map_iff in I as (y & <- & I). cbn [lower_extension e_singleton] in E.
    exists (e_singleton y). rewrite (Extensions_get_spec l _ L).
    destruct (find (fun z => beq (e_singleton z) (e_singleton y)) l) as [z|] eqn:F.
    + exists (extension_text z). split; [exact E|reflexivity].
    + exfalso. pose proof (find_none _ _ F y I) as N. cbv beta in N. rewrite beq_refl in N. discriminate.
Qed.

Lemma get_some_case e e' c : accepted ExtensionsT e -> accepted ExtensionsT e' -> same_ci e e' ->
  (exists c' x, lower c' = lower c /\ Extensions_get e c' = Ret (Some x)) ->
  (exists c' x, lower c' = lower c /\ Extensions_get e' c' = Ret (Some x)).
Proof.
  intros A A' E. apply accepted_extensions in A as (l & L & ->). apply accepted_extensions in A' as (l' & L' & ->).
  rewrite (exists_get l c L), (exists_get l' c L'), (extensions_ci l l' L L' E). auto.
Qed.

(** * 6. The macro *)

Lemma langtag_macro_spec s :
  (accepted LangTagT s /\ langtag_macro s = Ret s) \/ (~ accepted LangTagT s /\ langtag_macro s = Panic).
Proof.
  unfold langtag_macro, accepted. cbn [new_of automaton_of]. unfold new_of, automaton_of.
  rewrite new_tag. destruct (accepts LanguageTag s); cbn [bind]; [left|right]; split; try reflexivity.
  intros E. discriminate.
Qed.
