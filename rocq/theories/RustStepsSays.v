(** Every function of the crate, run from its text, takes at most a number of steps linear in the size of its arguments. *)
From Verif Require Import Base GrammarRs Validate Utils Grandfathered Normal LangTag Newtypes Derived.
From Verif Require Import RustText RustSyntax RustEval RustProgram RustRefine RustGrammar RustValidate RustNormal RustAccess
  RustTags RustLib RustSays RustCount RustSteps RustStepsNormal RustStepsLib.
Import Base.

(** The source text, read and run with enough fuel on every machine that has room for the arguments, ends in [r] after at
    most [B] steps.  As [runs] of RustSays.v; a step is an evaluation of an expression or a call (RustCount.v). *)
Definition swift (f : list string) (args : list value) (r : outcome (value * list value)) (B : nat) : Prop :=
  exists P, load files (Program [] [] [] [] []) = Some P /\
    forall M, 64 <= M -> rooms args <= M -> exists N, forall n, N <= n ->
      call M P n (VPath f) args = r /\ steps M P n (VPath f) args <= B.
Lemma swift_crate f args r B N :
  (forall M n, rooms args <= M -> N <= n -> priced M n (VPath f) args r B) -> swift f args r B.
Proof. intros H. exists crate. split; [exact crate_is_the_source|]. intros M _ L. exists N. intros n. now apply H. Qed.

Lemma automaton_new_steps {M} n ty :
  16 <= n -> priced M n (VPath [grammar_type ty; "new"]) [] (Ret (auto (grammar_type ty) 0, [])) 10.
Proof.
  intro Hn. apply priced_intro; [now apply automaton_new_src|]. intro s. fuel n 16.
  destruct ty; cbn [grammar_type]; kenter; over.
Qed.
Lemma push_steps {M} n ty q c : 16 <= n -> (q < states ty)%N ->
  priced M n (VPath [grammar_type ty; "push"]) [auto (grammar_type ty) q; VChar c]
    (Ret match push (automaton_of ty) q c with
      | Some q' => (VBool true, [auto (grammar_type ty) q'])
      | None => (VBool false, [auto (grammar_type ty) q])
      end) 21.
Proof. intros Hn Hq. apply (proj1 (automata_steps ty)); [assumption|]. destruct ty; exact Hq. Qed.
Lemma is_accepting_steps {M} n ty q : 16 <= n -> (q < states ty)%N ->
  priced M n (VPath [grammar_type ty; "is_accepting"]) [auto (grammar_type ty) q]
    (Ret (VBool (is_accepting (automaton_of ty) q), [])) 10.
Proof. intros Hn Hq. apply (proj2 (automata_steps ty)); [assumption|]. destruct ty; exact Hq. Qed.

Ltac cheap := first [lia|assumption|roomy].
Ltac affordable :=
  match goal with |- _ <= 3000 * rooms ?a + _ =>
    let r := fresh "r" in let R := fresh "R" in let Q := fresh "Q" in
    remember (rooms a) as r eqn:R; assert (rooms a <= r) as Q by lia; clear R; cbn in Q; lia
  end.
Theorem says_swift f args r : says f args r -> f <> ["find_list_end"] -> swift f args r (3000 * rooms args + 45 * 1000).
Proof.
  intros H U; destruct H.
  - (* into_smallcase *) apply (swift_crate _ _ _ _ (2000)); intros M n F L; eapply priced_more;
      [apply (into_smallcase_steps n c); cheap|affordable].
  - (* case_insensitive_eq *) apply (swift_crate _ _ _ _ (2000 + 2 * length a)); intros M n F L; eapply priced_more;
      [apply (case_insensitive_eq_steps n a b); cheap|affordable].
  - (* case_insensitive_hash *) apply (swift_crate _ _ _ _ (2000 + 2 * length s)); intros M n F L; eapply priced_more;
      [apply (case_insensitive_hash_steps n s l); cheap|affordable].
  - (* case_insensitive_cmp *) apply (swift_crate _ _ _ _ (2000 + 2 * length a)); intros M n F L; eapply priced_more;
      [apply (case_insensitive_cmp_steps n a b); cheap|affordable].
  - (* automaton_new *) apply (swift_crate _ _ _ _ (2000)); intros M n F L; eapply priced_more;
      [apply (automaton_new_steps n ty); cheap|affordable].
  - (* push *) apply (swift_crate _ _ _ _ (2000)); intros M n F L; eapply priced_more;
      [apply (push_steps n ty q c); cheap|affordable].
  - (* is_accepting *) apply (swift_crate _ _ _ _ (2000)); intros M n F L; eapply priced_more;
      [apply (is_accepting_steps n ty q); cheap|affordable].
  - (* validate_bytes *) apply (swift_crate _ _ _ _ (2000 + 2 * length s)); intros M n F L; eapply priced_more;
      [apply (validate_bytes_steps ty n s); cheap|affordable].
  - (* validate_str *) apply (swift_crate _ _ _ _ (2000 + 2 * length s)); intros M n F L; eapply priced_more;
      [apply (validate_str_steps ty n s); cheap|affordable].
  - (* new_str *) apply (swift_crate _ _ _ _ (2000 + 2 * length s)); intros M n F L; eapply priced_more;
      [exact (proj1 (@new_steps M ty n s ltac:(lia) ltac:(roomy)))|affordable].
  - (* new_bytes *) apply (swift_crate _ _ _ _ (2000 + 2 * length s)); intros M n F L; eapply priced_more;
      [exact (proj2 (@new_steps M ty n s ltac:(lia) ltac:(roomy)))|affordable].
  - (* eq *) apply (swift_crate _ _ _ _ (2000 + 2 * length a)); intros M n F L; eapply priced_more;
      [apply (eq_steps ty n a b); cheap|affordable].
  - (* partial_cmp *) apply (swift_crate _ _ _ _ (2000 + 2 * length a)); intros M n F L; eapply priced_more;
      [apply (partial_cmp_steps ty n a b); cheap|affordable].
  - (* cmp *) apply (swift_crate _ _ _ _ (2000 + 2 * length a)); intros M n F L; eapply priced_more;
      [apply (cmp_steps ty n a b); cheap|affordable].
  - (* hash *) apply (swift_crate _ _ _ _ (2000 + 2 * length a)); intros M n F L; eapply priced_more;
      [apply (hash_steps ty n a l); cheap|affordable].
  - (* LangTag_language *) apply (swift_crate _ _ _ _ (2000 + 2 * length s)); intros M n F L; eapply priced_more;
      [apply (LangTag_language_steps n s); cheap|affordable].
  - (* LangTag_script *) apply (swift_crate _ _ _ _ (2000 + 2 * length s)); intros M n F L; eapply priced_more;
      [apply (LangTag_script_steps n s); cheap|affordable].
  - (* LangTag_region *) apply (swift_crate _ _ _ _ (2000 + 2 * length s)); intros M n F L; eapply priced_more;
      [apply (LangTag_region_steps n s); cheap|affordable].
  - (* LangTag_variants *) apply (swift_crate _ _ _ _ (2000 + 2 * length s)); intros M n F L; eapply priced_more;
      [apply (LangTag_variants_steps n s); cheap|affordable].
  - (* LangTag_extensions *) apply (swift_crate _ _ _ _ (2000 + 2 * length s)); intros M n F L; eapply priced_more;
      [apply (LangTag_extensions_steps n s); cheap|affordable].
  - (* LangTag_private_use *) apply (swift_crate _ _ _ _ (2000 + 2 * length s)); intros M n F L; eapply priced_more;
      [apply (LangTag_private_use_steps n s); cheap|affordable].
  - (* LangTag_private_use_subtags *) apply (swift_crate _ _ _ _ (2000 + 2 * length s)); intros M n F L; eapply priced_more;
      [apply (LangTag_private_use_subtags_steps n s); cheap|affordable].
  - (* LangTag_is_normal *) apply (swift_crate _ _ _ _ (2000 + 2 * length s)); intros M n F L; eapply priced_more;
      [apply (LangTag_is_normal_steps n s); cheap|affordable].
  - (* LangTag_is_private_use *) apply (swift_crate _ _ _ _ (2000 + 2 * length s)); intros M n F L; eapply priced_more;
      [apply (LangTag_is_private_use_steps n s); cheap|affordable].
  - (* LangTag_is_grandfathered *) apply (swift_crate _ _ _ _ (2000 + 2 * length s)); intros M n F L; eapply priced_more;
      [apply (LangTag_is_grandfathered_steps n s); cheap|affordable].
  - (* LangTag_as_normal *) apply (swift_crate _ _ _ _ (2000 + 2 * length s)); intros M n F L; eapply priced_more;
      [apply (LangTag_as_normal_steps n s); cheap|affordable].
  - (* LangTag_as_private_use *) apply (swift_crate _ _ _ _ (2000 + 2 * length s)); intros M n F L; eapply priced_more;
      [apply (LangTag_as_private_use_steps n s); cheap|affordable].
  - (* LangTag_as_grandfathered *) apply (swift_crate _ _ _ _ (2000 + 2 * length s)); intros M n F L; eapply priced_more;
      [apply (LangTag_as_grandfathered_steps n s); cheap|affordable].
  - (* LangTag_kind *) apply (swift_crate _ _ _ _ (2000 + 2 * length s)); intros M n F L; eapply priced_more;
      [apply (LangTag_kind_steps n s); cheap|affordable].
  - (* LangTag_as_typed *) apply (swift_crate _ _ _ _ (2000 + 2 * length s)); intros M n F L; eapply priced_more;
      [apply (LangTag_as_typed_steps n s); cheap|affordable].
  - (* Typed_language *) apply (swift_crate _ _ _ _ (2000 + 2 * length (match t with TNormal s => s | _ => [] end))); intros M n F L; eapply priced_more;
      [apply (Typed_language_steps n t); [lia|destruct t; exact I || roomy]|destruct t; cbn iota; cbn [length]; affordable].
  - (* Typed_kind *) apply (swift_crate _ _ _ _ (2000)); intros M n F L; eapply priced_more;
      [apply (Typed_kind_steps n t); cheap|affordable].
  - (* Typed_is_normal *) apply (swift_crate _ _ _ _ (2000)); intros M n F L; eapply priced_more;
      [exact (proj1 (Typed_is_steps n t ltac:(lia)))|affordable].
  - (* Typed_as_normal *) apply (swift_crate _ _ _ _ (2000)); intros M n F L; eapply priced_more;
      [exact (proj1 (Typed_as_steps n t ltac:(lia)))|affordable].
  - (* Kind_is_normal *) apply (swift_crate _ _ _ _ (2000)); intros M n F L; eapply priced_more;
      [exact (proj1 (Kind_is_steps n k ltac:(lia)))|affordable].
  - (* Typed_is_private_use *) apply (swift_crate _ _ _ _ (2000)); intros M n F L; eapply priced_more;
      [exact (proj1 (proj2 (Typed_is_steps n t ltac:(lia))))|affordable].
  - (* Typed_as_private_use *) apply (swift_crate _ _ _ _ (2000)); intros M n F L; eapply priced_more;
      [exact (proj1 (proj2 (Typed_as_steps n t ltac:(lia))))|affordable].
  - (* Kind_is_private_use *) apply (swift_crate _ _ _ _ (2000)); intros M n F L; eapply priced_more;
      [exact (proj1 (proj2 (Kind_is_steps n k ltac:(lia))))|affordable].
  - (* Typed_is_grandfathered *) apply (swift_crate _ _ _ _ (2000)); intros M n F L; eapply priced_more;
      [exact (proj2 (proj2 (Typed_is_steps n t ltac:(lia))))|affordable].
  - (* Typed_as_grandfathered *) apply (swift_crate _ _ _ _ (2000)); intros M n F L; eapply priced_more;
      [exact (proj2 (proj2 (Typed_as_steps n t ltac:(lia))))|affordable].
  - (* Kind_is_grandfathered *) apply (swift_crate _ _ _ _ (2000)); intros M n F L; eapply priced_more;
      [exact (proj2 (proj2 (Kind_is_steps n k ltac:(lia))))|affordable].
  - (* Grandfathered_new *) apply (swift_crate _ _ _ _ (2000 + 2 * length s)); intros M n F L; eapply priced_more;
      [apply (Grandfathered_new_steps n s w); cheap|affordable].
  - (* Grandfathered_try_from *) apply (swift_crate _ _ _ _ (2000 + 2 * length s)); intros M n F L; eapply priced_more;
      [apply (Grandfathered_try_from_steps n s); cheap|affordable].
  - (* Grandfathered_language *) apply (swift_crate _ _ _ _ (2000)); intros M n F L; eapply priced_more;
      [apply (Grandfathered_language_steps n g); cheap|affordable].
  - (* Grandfathered_as_bytes *) apply (swift_crate _ _ _ _ (2000)); intros M n F L; eapply priced_more;
      [apply (Grandfathered_as_bytes_steps n g); cheap|affordable].
  - (* Grandfathered_as_str *) apply (swift_crate _ _ _ _ (2000)); intros M n F L; eapply priced_more;
      [apply (Grandfathered_as_str_steps n g); cheap|affordable].
  - (* Grandfathered_display *) apply (swift_crate _ _ _ _ (2000)); intros M n F L; eapply priced_more;
      [apply (Grandfathered_display_steps n g l); cheap|affordable].
  - (* Normal_language_end *) apply (swift_crate _ _ _ _ (2000 + 2 * length s)); intros M n F L; eapply priced_more;
      [apply (language_end_steps n s); cheap|affordable].
  - (* Normal_script_range *) apply (swift_crate _ _ _ _ (2000 + 2 * length s)); intros M n F L; eapply priced_more;
      [apply (script_range_steps n s); cheap|affordable].
  - (* Normal_region_range *) apply (swift_crate _ _ _ _ (2000 + 2 * length s)); intros M n F L; eapply priced_more;
      [apply (region_range_steps n s); cheap|affordable].
  - (* Normal_variants_range *) apply (swift_crate _ _ _ _ (2000 + 2 * length s)); intros M n F L; eapply priced_more;
      [apply (variants_range_steps n s); cheap|affordable].
  - (* Normal_extensions_range *) apply (swift_crate _ _ _ _ (2000 + 2 * length s)); intros M n F L; eapply priced_more;
      [apply (extensions_range_steps n s); cheap|affordable].
  - (* Normal_private_use_offset *) apply (swift_crate _ _ _ _ (2000 + 2 * length s)); intros M n F L; eapply priced_more;
      [apply (private_use_offset_steps n s); cheap|affordable].
  - (* Normal_language *) apply (swift_crate _ _ _ _ (2000 + 2 * length s)); intros M n F L; eapply priced_more;
      [apply (NormalLangTag_language_steps n s); cheap|affordable].
  - (* Normal_script *) apply (swift_crate _ _ _ _ (2000 + 2 * length s)); intros M n F L; eapply priced_more;
      [apply (NormalLangTag_script_steps n s); cheap|affordable].
  - (* Normal_region *) apply (swift_crate _ _ _ _ (2000 + 2 * length s)); intros M n F L; eapply priced_more;
      [apply (NormalLangTag_region_steps n s); cheap|affordable].
  - (* Normal_variants *) apply (swift_crate _ _ _ _ (2000 + 2 * length s)); intros M n F L; eapply priced_more;
      [apply (NormalLangTag_variants_steps n s); cheap|affordable].
  - (* Normal_extensions *) apply (swift_crate _ _ _ _ (2000 + 2 * length s)); intros M n F L; eapply priced_more;
      [apply (NormalLangTag_extensions_steps n s); cheap|affordable].
  - (* Normal_private_use *) apply (swift_crate _ _ _ _ (2000 + 2 * length s)); intros M n F L; eapply priced_more;
      [apply (NormalLangTag_private_use_steps n s); cheap|affordable].
  - (* Normal_private_use_subtags *) apply (swift_crate _ _ _ _ (2000 + 2 * length s)); intros M n F L; eapply priced_more;
      [apply (NormalLangTag_private_use_subtags_steps n s); cheap|affordable].
  - (* find_list_end *) now destruct U.
  - (* find_segment_end *) apply (swift_crate _ _ _ _ (2000 + 2 * length s)); intros M n F L; eapply priced_more;
      [apply (find_segment_end_steps n s off); cheap|affordable].
  - (* find_segment_start *) apply (swift_crate _ _ _ _ (2000 + 2 * length s + e)); intros M n F L; eapply priced_more;
      [apply (find_segment_start_steps n s e); cheap|affordable].
  - (* Singleton_new *) apply (swift_crate _ _ _ _ (2000)); intros M n F L; eapply priced_more;
      [apply (Singleton_new_steps n c); cheap|affordable].
  - (* Singleton_try_from_u8 *) apply (swift_crate _ _ _ _ (2000)); intros M n F L; eapply priced_more;
      [apply (Singleton_try_from_u8_steps n c); cheap|affordable].
  - (* Singleton_try_from_char *) apply (swift_crate _ _ _ _ (2000)); intros M n F L; eapply priced_more;
      [apply (Singleton_try_from_char_steps n c); cheap|affordable].
  - (* Singleton_from_string *) apply (swift_crate _ _ _ _ (2000 + 2 * length s)); intros M n F L; eapply priced_more;
      [apply (Singleton_from_string_steps n s); cheap|affordable].
  - (* Singleton_from_str *) apply (swift_crate _ _ _ _ (2000 + 2 * length s)); intros M n F L; eapply priced_more;
      [apply (Singleton_from_str_steps n s); cheap|affordable].
  - (* Singleton_unwrap *) apply (swift_crate _ _ _ _ (2000)); intros M n F L; eapply priced_more;
      [apply (Singleton_unwrap_steps n b); cheap|affordable].
  - (* Singleton_eq_u8 *) apply (swift_crate _ _ _ _ (2000)); intros M n F L; eapply priced_more;
      [apply (Singleton_eq_u8_steps n a b); cheap|affordable].
  - (* Singleton_eq_char *) apply (swift_crate _ _ _ _ (2000)); intros M n F L; eapply priced_more;
      [apply (Singleton_eq_char_steps n a c); cheap|affordable].
  - (* Singleton_display *) apply (swift_crate _ _ _ _ (2000)); intros M n F L; eapply priced_more;
      [apply (Singleton_display_steps n b l); cheap|affordable].
  - (* Singleton_debug *) apply (swift_crate _ _ _ _ (2000)); intros M n F L; eapply priced_more;
      [apply (Singleton_debug_steps n b l); cheap|affordable].
  - (* PrivateUseIter_new *) apply (swift_crate _ _ _ _ (2000 + 2 * length s)); intros M n F L; eapply priced_more;
      [apply (PrivateUseIter_new_steps n s); cheap|affordable].
  - (* PrivateUse_iter *) apply (swift_crate _ _ _ _ (2000 + 2 * length s)); intros M n F L; eapply priced_more;
      [apply (PrivateUse_iter_steps n s); cheap|affordable].
  - (* PrivateUseIter_empty *) apply (swift_crate _ _ _ _ (2000)); intros M n F L; eapply priced_more;
      [apply (PrivateUseIter_empty_steps n); cheap|affordable].
  - (* PrivateUseIter_next *) apply (swift_crate _ _ _ _ (2000 + 2 * length (it_data it))); intros M n F L; eapply priced_more;
      [apply (PrivateUseIter_next_steps n it); cheap|affordable].
  - (* ExtensionIter_new *) apply (swift_crate _ _ _ _ (2000 + 2 * length s)); intros M n F L; eapply priced_more;
      [apply (ExtensionIter_new_steps n s); cheap|affordable].
  - (* Extension_iter *) apply (swift_crate _ _ _ _ (2000 + 2 * length s)); intros M n F L; eapply priced_more;
      [apply (Extension_iter_steps n s); cheap|affordable].
  - (* ExtensionIter_empty *) apply (swift_crate _ _ _ _ (2000)); intros M n F L; eapply priced_more;
      [apply (ExtensionIter_empty_steps n); cheap|affordable].
  - (* ExtensionIter_next *) apply (swift_crate _ _ _ _ (2000 + 2 * length (it_data it))); intros M n F L; eapply priced_more;
      [apply (ExtensionIter_next_steps n it); cheap|affordable].
  - (* LanguageExtensionIter_new *) apply (swift_crate _ _ _ _ (2000 + 2 * length s)); intros M n F L; eapply priced_more;
      [apply (LanguageExtensionIter_new_steps n s); cheap|affordable].
  - (* LanguageExtension_iter *) apply (swift_crate _ _ _ _ (2000 + 2 * length s)); intros M n F L; eapply priced_more;
      [apply (LanguageExtension_iter_steps n s); cheap|affordable].
  - (* LanguageExtensionIter_empty *) apply (swift_crate _ _ _ _ (2000)); intros M n F L; eapply priced_more;
      [apply (LanguageExtensionIter_empty_steps n); cheap|affordable].
  - (* LanguageExtensionIter_next *) apply (swift_crate _ _ _ _ (2000 + 2 * length (it_data it))); intros M n F L; eapply priced_more;
      [apply (LanguageExtensionIter_next_steps n it); cheap|affordable].
  - (* ExtensionsIter_new *) apply (swift_crate _ _ _ _ (2000 + 2 * length s)); intros M n F L; eapply priced_more;
      [apply (ExtensionsIter_new_steps n s); cheap|affordable].
  - (* Extensions_iter *) apply (swift_crate _ _ _ _ (2000 + 2 * length s)); intros M n F L; eapply priced_more;
      [apply (Extensions_iter_steps n s); cheap|affordable].
  - (* ExtensionsIter_next *) apply (swift_crate _ _ _ _ (2000 + 2 * length (it_data it))); intros M n F L; eapply priced_more;
      [apply (ExtensionsIter_next_steps n it); cheap|affordable].
  - (* VariantsIter_new *) apply (swift_crate _ _ _ _ (2000 + 2 * length s)); intros M n F L; eapply priced_more;
      [apply (VariantsIter_new_steps n s); cheap|affordable].
  - (* Variants_iter *) apply (swift_crate _ _ _ _ (2000 + 2 * length s)); intros M n F L; eapply priced_more;
      [apply (Variants_iter_steps n s); cheap|affordable].
  - (* VariantsIter_empty *) apply (swift_crate _ _ _ _ (2000)); intros M n F L; eapply priced_more;
      [apply (VariantsIter_empty_steps n); cheap|affordable].
  - (* VariantsIter_next *) apply (swift_crate _ _ _ _ (2000 + length (v_data it))); intros M n F L; eapply priced_more;
      [apply (VariantsIter_next_steps n it); cheap|affordable].
  - (* VariantsIter_next_back *) apply (swift_crate _ _ _ _ (2000 + v_end it)); intros M n F L; eapply priced_more;
      [apply (VariantsIter_next_back_steps n it); cheap|affordable].
  - (* Variants_first *) apply (swift_crate _ _ _ _ (2000 + 2 * length s)); intros M n F L; eapply priced_more;
      [apply (Variants_first_steps n s); cheap|affordable].
  - (* Variants_last *) apply (swift_crate _ _ _ _ (2000 + 2 * length s)); intros M n F L; eapply priced_more;
      [apply (Variants_last_steps n s); cheap|affordable].
  - (* Extension_singleton *) apply (swift_crate _ _ _ _ (2000 + 2 * length s)); intros M n F L; eapply priced_more;
      [apply (Extension_singleton_steps n s); cheap|affordable].
  - (* Extensions_get *) apply (swift_crate _ _ _ _ (2000 + 2 * length s)); intros M n F L; eapply priced_more;
      [apply (Extensions_get_steps n s c); cheap|affordable].
  - (* Extensions_iter_extension *) apply (swift_crate _ _ _ _ (2000 + 2 * length s)); intros M n F L; eapply priced_more;
      [apply (Extensions_iter_extension_steps n s c); cheap|affordable].
  - (* Language_primary *) apply (swift_crate _ _ _ _ (2000 + 2 * length s)); intros M n F L; eapply priced_more;
      [apply (Language_primary_steps n s); cheap|affordable].
  - (* Language_extension *) apply (swift_crate _ _ _ _ (2000 + 2 * length s)); intros M n F L; eapply priced_more;
      [apply (Language_extension_steps n s); cheap|affordable].
  - (* Language_extension_subtags *) apply (swift_crate _ _ _ _ (2000 + 2 * length s)); intros M n F L; eapply priced_more;
      [apply (Language_extension_subtags_steps n s); cheap|affordable].
Qed.
