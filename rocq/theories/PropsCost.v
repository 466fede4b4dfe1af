(** Property C58: linear time, counted in iterations of the loops (Cost.v).  Each bound is stated with the outcome, that
    of the function without the count. *)
From Verif Require Import Base GrammarRs Validate Utils Grandfathered Normal LangTag Newtypes Derived Cost Spec Observe
  Linear Samples.

(** The counted [x] has the outcome [y], after at most [n] iterations. *)
Definition within {A} (x : costed A) (y : outcome A) (n : nat) : Prop := snd x = y /\ fst x <= n.

(** Construction, of every type. *)
Theorem C58_new : forall A s, within (k_new A s) (new A s) (length s).
Proof. intros A s. split; [apply k_new_same|apply new_cost]. Qed.
Theorem C58_grandfathered : forall s, within (k_grandfathered_new s) (Grandfathered_new s) (26 * S (length s)).
Proof. intros s. split; [apply k_grandfathered_new_same|apply grandfathered_new_cost]. Qed.
(** Comparisons stop at the end of the shorter value. *)
Theorem C58_case : forall a b,
  within (k_eq a b) (case_insensitive_eq a b) (Nat.min (length a) (length b)) /\
  within (k_cmp a b) (case_insensitive_cmp a b) (S (Nat.min (length a) (length b))) /\
  forall H st, within (k_hash H a st) (Ret (case_insensitive_hash H a st)) (length a).
Proof.
  intros a b. split; [split; [apply k_eq_same|apply eq_cost]|]. split; [split; [apply k_cmp_same|apply cmp_cost]|].
  intros H st. split; [apply k_hash_same|rewrite hash_cost; apply le_n].
Qed.
(** Accessors, on any string. *)
Theorem C58_accessors : forall s,
  within (k_language s) (NormalLangTag_language s) (2 * length s + 2) /\
  within (k_script s) (NormalLangTag_script s) (4 * length s + 4) /\
  within (k_region s) (NormalLangTag_region s) (6 * length s + 6) /\
  within (k_variants s) (NormalLangTag_variants s) (8 * length s + 8) /\
  within (k_extensions s) (NormalLangTag_extensions s) (10 * length s + 10) /\
  within (k_private_use s) (NormalLangTag_private_use s) (8 * length s + 8).
Proof.
  intros s.
  split; [split; [apply k_language_same|apply language_cost]|].
  split; [split; [apply k_script_same|apply script_cost]|].
  split; [split; [apply k_region_same|apply region_cost]|].
  split; [split; [apply k_variants_same|apply variants_cost]|].
  split; [split; [apply k_extensions_same|apply extensions_cost]|].
  split; [apply k_private_use_same|apply private_use_cost].
Qed.
Theorem C58_langtag : forall s,
  within (k_LangTag_language s) (LangTag_language s) (27 * length s + 26) /\
  within (k_LangTag_script s) (LangTag_script s) (5 * length s + 4) /\
  within (k_LangTag_region s) (LangTag_region s) (7 * length s + 6) /\
  within (k_LangTag_variants s) (LangTag_variants s) (9 * length s + 8) /\
  within (k_LangTag_extensions s) (LangTag_extensions s) (11 * length s + 10) /\
  within (k_LangTag_private_use s) (LangTag_private_use s) (9 * length s + 8) /\
  within (k_as_normal s) (LangTag_as_normal s) (length s) /\
  within (k_as_private_use s) (LangTag_as_private_use s) (length s) /\
  within (k_as_grandfathered s) (LangTag_as_grandfathered s) (26 * S (length s)) /\
  within (k_as_typed s) (LangTag_as_typed s) (28 * length s + 26).
Proof. exact langtag_cost. Qed.
(** Iteration: the calls of [next] made, in any number, and all the work in them.  The iterators over the subtags of a
    private use sequence, of an extension and of a language are in any state whatever. *)
Theorem C58_segments : forall k it,
  within (k_calls k_segment_next k it) (calls PrivateUseIter_next k it) (length (it_data it) + 1 + k) /\
  within (k_calls k_segment_next k it) (calls ExtensionIter_next k it) (length (it_data it) + 1 + k) /\
  within (k_calls k_segment_next k it) (calls LanguageExtensionIter_next k it) (length (it_data it) + 1 + k).
Proof.
  intros k it. pose proof (segment_calls_cost k it).
  repeat split; try (apply k_calls_same; apply k_segment_next_same); lia.
Qed.
Theorem C58_variants : forall v ops,
  within (k_calls_de k_variants_next k_variants_next_back ops (Variants_iter v))
         (calls_de VariantsIter_next VariantsIter_next_back ops (Variants_iter v)) (2 * length v + 1 + length ops).
Proof.
  intros v ops. split; [apply k_calls_de_same; [apply k_variants_next_same|apply k_variants_next_back_same]|].
  pose proof (variants_calls_cost ops (Variants_iter v)) as C. unfold variants_potential in C. cbn in C |- *. lia.
Qed.
(** Of the [Extensions], the values that can be constructed: the bound needs the bound on the length of a subtag. *)
Theorem C58_extensions : forall e, accepted ExtensionsT e ->
  (forall k, within (k_calls k_extensions_next k (Extensions_iter e))
                    (calls ExtensionsIter_next k (Extensions_iter e)) (11 * length e + 12 + k)) /\
  forall c, within (k_get e c) (Extensions_get e c) (3 * length e + 2).
Proof.
  intros e A. split; [|intros c; split; [apply k_get_same|apply get_cost]].
  intros k. split; [apply k_calls_same; apply k_extensions_next_same|].
  pose proof (extensions_calls_cost k (Extensions_iter e) (extensions_runs e A)) as C. cbn in C |- *. lia.
Qed.
Print Assumptions C58_new.
Print Assumptions C58_grandfathered.
Print Assumptions C58_case.
Print Assumptions C58_accessors.
Print Assumptions C58_langtag.
Print Assumptions C58_segments.
Print Assumptions C58_variants.
Print Assumptions C58_extensions.

Example C58_counts : length full_text = 50 /\ accepted LangTagT full_text /\
  fst (k_new LanguageTag full_text) = 50 /\ fst (k_script full_text) = 31 /\
  fst (k_LangTag_extensions full_text) = 143 /\ fst (k_as_typed (bs "sgn-BE-FR")) = 37 /\
  accepted ExtensionsT (bs "a-foo-b-bar-Baz") /\
  k_get (bs "a-foo-b-bar-Baz") "b"%byte = (14, Ret (Some (bs "b-bar-Baz"))) /\
  k_calls k_extensions_next 3 (Extensions_iter (bs "a-foo-b-bar-Baz")) =
    (26, Ret [Some (bs "a-foo"); Some (bs "b-bar-Baz"); None]) /\
  k_calls_de k_variants_next k_variants_next_back [Back; Front; Back] (Variants_iter (bs "rozaj-1996")) =
    (14, Ret [Some (bs "1996"); Some (bs "rozaj"); None]).
Proof. repeat split; vm_compute; reflexivity. Qed.
(** Without the bound on the subtags the bound of [C58_extensions] fails, the iteration is quadratic: here is a text
    that only [new_unchecked] makes an [Extensions]. *)
Example C58_extensions_needs_accepted :
  ~ fst (k_calls k_extensions_next 43 (Extensions_iter (repeat "a"%byte 128))) <= 11 * 128 + 12 + 43.
Proof. vm_compute. lia. Qed.
