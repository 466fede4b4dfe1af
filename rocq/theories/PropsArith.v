(** Property C57: no addition or subtraction overflows.  A string is at most [isize::MAX] bytes long, half of
    [usize::MAX]; under that bound the functions with overflow (Checked.v) have the same outcomes as without, whether
    overflow panics or wraps. *)
From Verif Require Import Base GrammarRs Validate Utils Grandfathered Normal LangTag Newtypes Derived Spec Observe
  Checked NoOverflow Samples.

Definition fits (M : machine) (s : bytes) : Prop := 8 <= usize_max M /\ length s <= usize_max M / 2.

Theorem C57_validate : forall M A s, fits M s -> c_new M A s = new A s.
Proof. intros M A s [L H]. apply c_new_eq, isize_roomy; assumption. Qed.
Theorem C57_case : forall M a b, fits M a ->
  c_eq M a b = case_insensitive_eq a b /\
  c_cmp M a b = case_insensitive_cmp a b /\
  forall H st, c_hash M H a st = Ret (case_insensitive_hash H a st).
Proof.
  intros M a b [L H]. split; [apply c_eq_eq|split; [apply c_cmp_eq, isize_roomy; assumption|]].
  intros h st. apply c_hash_eq.
Qed.
Theorem C57_accessors : forall M s, fits M s ->
  c_language M s = NormalLangTag_language s /\ c_script M s = NormalLangTag_script s /\
  c_region M s = NormalLangTag_region s /\ c_variants M s = NormalLangTag_variants s /\
  c_extensions M s = NormalLangTag_extensions s /\ c_private_use M s = NormalLangTag_private_use s.
Proof. intros M s [L H]. apply c_accessors_eq, isize_roomy; assumption. Qed.
(** In every state, reachable or not. *)
Theorem C57_iterators : forall M,
  (forall it, fits M (it_data it) ->
     c_segment_next M it = PrivateUseIter_next it /\ c_segment_next M it = ExtensionIter_next it /\
     c_segment_next M it = LanguageExtensionIter_next it /\ c_extensions_next M it = ExtensionsIter_next it) /\
  (forall it, fits M (v_data it) ->
     c_variants_next M it = VariantsIter_next it /\ c_variants_next_back M it = VariantsIter_next_back it).
Proof.
  intros M. split; intros it [L H]; pose proof (isize_roomy M _ L H) as R.
  - pose proof (c_segment_next_eq M it R). pose proof (c_extensions_next_eq M it R). repeat split; assumption.
  - split; [apply c_variants_next_eq|apply c_variants_next_back_eq]; exact R.
Qed.
Theorem C57_get : forall M s c, fits M s -> c_get M s c = Extensions_get s c.
Proof. intros M s c [L H]. apply c_get_eq, isize_roomy; assumption. Qed.
Print Assumptions C57_validate.
Print Assumptions C57_case.
Print Assumptions C57_accessors.
Print Assumptions C57_iterators.
Print Assumptions C57_get.

(** On a machine with too small a [usize] both kinds of build go wrong, so the bound is used. *)
Example C57_small_machine :
  fits (Machine 255 true) full_text /\
  c_script (Machine 3 true) (bs "fr-Latn-FR") = Panic /\
  c_script (Machine 255 true) (bs "fr-Latn-FR") = Ret (Some (bs "Latn")) /\
  c_cmp (Machine 3 false) (bs "sl-Latn") (bs "sl-Latz") = OutOfFuel /\
  c_cmp (Machine 255 false) (bs "sl-Latn") (bs "sl-Latz") = Ret Lt.
Proof. split; [split; vm_compute; lia|]. repeat split; vm_compute; reflexivity. Qed.
