(** Properties C18-C22, C41, C42 and C45: equality, order and hashing. *)
From Verif Require Import Base GrammarRs Validate Utils Grandfathered Normal LangTag Newtypes Derived Spec Observe
  Case Kind Order Values More Samples.

(** * C18 *)

Theorem C18_eq_exact : forall ty a b,
  (eq_of ty a b = Ret true <->
   length a = length b /\
   forall i x y, nth_error a i = Some x -> nth_error b i = Some y -> lower x = lower y) /\
  (eq_of ty a b = Ret true \/ eq_of ty a b = Ret false).
Proof.
  intros ty a b. split; [rewrite eq_of_true; apply same_ci_pointwise|].
  rewrite eq_of_ci. destruct (ci_eqb a b); auto.
Qed.
Theorem C18_equivalence : forall ty,
  (forall a, eq_of ty a a = Ret true) /\
  (forall a b, eq_of ty a b = eq_of ty b a) /\
  (forall a b c, eq_of ty a b = Ret true -> eq_of ty b c = Ret true -> eq_of ty a c = Ret true).
Proof. exact eq_equivalence. Qed.
Print Assumptions C18_eq_exact.
Print Assumptions C18_equivalence.
Example C18_case : eq_of LangTagT (bs "fr-LATN-Fr") (bs "FR-latn-fR") = Ret true /\
  eq_of LangTagT (bs "fr-FR") (bs "fr-FR-1996") = Ret false /\ eq_of VariantT (bs "[abcd") (bs "{abcd") = Ret false.
Proof. repeat split; vm_compute; reflexivity. Qed.

(** * C19 *)

Theorem C19_cmp_total_order : forall ty,
  (forall a b, exists c, cmp_of ty a b = Ret c /\ cmp_of ty b a = Ret (CompOpp c) /\
                         partial_cmp_of ty a b = Ret (Some c)) /\
  (forall a b, cmp_of ty a b = Ret Eq <-> eq_of ty a b = Ret true) /\
  (forall a b c, cmp_of ty a b = Ret Lt -> cmp_of ty b c = Ret Lt -> cmp_of ty a c = Ret Lt) /\
  (forall a b c, cmp_of ty a b = Ret Gt -> cmp_of ty b c = Ret Gt -> cmp_of ty a c = Ret Gt) /\
  (forall a a' b b', eq_of ty a a' = Ret true -> eq_of ty b b' = Ret true -> cmp_of ty a b = cmp_of ty a' b').
Proof. exact cmp_total_order. Qed.
Print Assumptions C19_cmp_total_order.
Example C19_case : cmp_of LangTagT (bs "DE-at") (bs "de-CH") = Ret Lt /\
  cmp_of LangTagT (bs "de-CH") (bs "fr") = Ret Lt /\ cmp_of LangTagT (bs "FR") (bs "fr") = Ret Eq.
Proof. repeat split; vm_compute; reflexivity. Qed.

(** * C20: false, a proper prefix sorts after its extensions. *)

Definition C20_statement : Prop := forall ty a b, accepted ty a -> accepted ty b ->
  cmp_of ty a b = Ret (lex (map lower a) (map lower b)).
Theorem C20_refuted : ~ C20_statement.
Proof.
  intros H. specialize (H LangTagT (bs "fr") (bs "fr-FR")). vm_compute in H. specialize (H eq_refl eq_refl). discriminate.
Qed.
(** The usual order, unless one text is a proper prefix of the other, up to case; then the longer is the lesser. *)
Theorem C20_cmp_lex_partial : forall ty a b,
  ((prefix (map lower a) (map lower b) -> same_ci a b) -> (prefix (map lower b) (map lower a) -> same_ci a b) ->
   cmp_of ty a b = Ret (lex (map lower a) (map lower b))) /\
  (prefix (map lower a) (map lower b) -> ~ same_ci a b -> cmp_of ty a b = Ret Gt /\ cmp_of ty b a = Ret Lt).
Proof. intros ty a b. split; [apply cmp_lex|apply cmp_prefix]. Qed.
(** Exactly: the usual order of the lowercase texts followed by a mark above every byte. *)
Theorem C20_exact : forall ty a b, cmp_of ty a b = Ret (lex_codes (marked a) (marked b)).
Proof. exact cmp_exact. Qed.
Print Assumptions C20_refuted.
Print Assumptions C20_cmp_lex_partial.
Print Assumptions C20_exact.
Example C20_case : cmp_of LangTagT (bs "fr-CA") (bs "FR-be") = Ret (lex (bs "fr-ca") (bs "fr-be")) /\
  cmp_of LangTagT (bs "fr") (bs "fr-FR") = Ret Gt.
Proof. split; vm_compute; reflexivity. Qed.

(** * C21 *)

Theorem C21_hash : forall ty a b,
  ((forall H st, hash_of ty H a st = hash_of ty H b st) <-> eq_of ty a b = Ret true) /\
  (fed ty a = fed ty b <-> eq_of ty a b = Ret true).
Proof. intros ty a b. split; [apply hash_exact|apply fed_eq]. Qed.
(** What is fed is the lowercase text, one byte after the other. *)
Theorem C21_fed : forall ty a, fed ty a = map lower a.
Proof. exact fed_lower. Qed.
Print Assumptions C21_hash.
Print Assumptions C21_fed.
Example C21_case : eq_of LangTagT (bs "fr-FR") (bs "FR-fr") = Ret true /\ fed LangTagT (bs "FR-fr") = bs "fr-fr".
Proof. split; vm_compute; reflexivity. Qed.

(** * C22: false for all but three types. *)

Definition C22_statement : Prop := forall ty, prefix_free ty.
Theorem C22_refuted : ~ C22_statement.
Proof. intros H. specialize (H LangTagT). apply prefix_free_exact in H as [H|[H|H]]; discriminate. Qed.
Theorem C22_exact_partial : forall ty, prefix_free ty <-> ty = ScriptT \/ ty = RegionT \/ ty = ExtendedLangTagT.
Proof. exact prefix_free_exact. Qed.
(** A consequence: two pairs of accepted tags, different under ==, that hash equally with every hasher. *)
Theorem C22_pairs_collide :
  accepted LangTagT (bs "en") /\ accepted LangTagT (bs "abcd") /\
  accepted LangTagT (bs "ena") /\ accepted LangTagT (bs "bcd") /\
  eq_of LangTagT (bs "en") (bs "ena") = Ret false /\
  forall (H : hasher) st,
    hash_of LangTagT H (bs "abcd") (hash_of LangTagT H (bs "en") st) =
    hash_of LangTagT H (bs "bcd") (hash_of LangTagT H (bs "ena") st).
Proof. do 5 (split; [vm_compute; reflexivity|]). exact pairs_collide. Qed.
Print Assumptions C22_refuted.
Print Assumptions C22_exact_partial.
Print Assumptions C22_pairs_collide.
Example C22_case : accepted RegionT (bs "FR") /\ accepted RegionT (bs "419") /\
  accepted LangTagT (bs "fr") /\ accepted LangTagT (bs "fr-FR") /\
  fed LangTagT (bs "fr-FR") = fed LangTagT (bs "fr") ++ bs "-fr".
Proof. repeat split; vm_compute; reflexivity. Qed.

(** * C41: derived implementations *)

Theorem C41_kind :
  (forall a b, Kind_eq a b = true <-> a = b) /\ total_order Kind_cmp /\
  (forall a b, Kind_partial_cmp a b = Some (Kind_cmp a b)) /\
   Kind_cmp KNormal KPrivateUse = Lt /\ Kind_cmp KPrivateUse KGrandfathered = Lt /\
  (forall a b, (forall H st, Kind_hash H a st = Kind_hash H b st) <-> a = b).
Proof. exact derived_kind. Qed.
Theorem C41_grandfathered :
  (forall a b, Grandfathered_eq a b = true <-> a = b) /\ total_order Grandfathered_cmp /\
  (forall a b, Grandfathered_partial_cmp a b = Some (Grandfathered_cmp a b)) /\
  (forall a b, (forall H st, Grandfathered_hash H a st = Grandfathered_hash H b st) <-> a = b).
Proof. exact derived_grandfathered. Qed.
Theorem C41_singleton :
  (forall a b, Singleton_eq a b = true <-> a = b) /\ total_order Singleton_cmp /\
  (forall a b, Singleton_partial_cmp a b = Some (Singleton_cmp a b)) /\
  (forall a b, (forall H st, Singleton_hash H a st = Singleton_hash H b st) <-> a = b).
Proof. exact derived_singleton. Qed.
Print Assumptions C41_kind.
Print Assumptions C41_grandfathered.
Print Assumptions C41_singleton.
Example C41_case : Grandfathered_cmp EnGbOed ZhXiang = Lt /\ Singleton_cmp "A"%byte "a"%byte = Lt.
Proof. split; vm_compute; reflexivity. Qed.

(** * C42 *)

Theorem C42_grandfathered_eq : forall g h ty,
  Grandfathered_eq g h = true <-> eq_of ty (Grandfathered_as_bytes g) (Grandfathered_as_bytes h) = Ret true.
Proof. exact Grandfathered_eq_text. Qed.
Theorem C42_listed :
  NoDup GRANDFATHERED /\ length GRANDFATHERED = 26 /\ (forall g, In g GRANDFATHERED) /\
   map Grandfathered_discriminant GRANDFATHERED = map N.of_nat (seq 0 26).
Proof. exact grandfathered_listed. Qed.
Print Assumptions C42_grandfathered_eq.
Print Assumptions C42_listed.
Example C42_case : Grandfathered_eq ZhMin ZhMinNan = false /\
  eq_of LangTagT (Grandfathered_as_bytes ZhMin) (Grandfathered_as_bytes ZhMinNan) = Ret false.
Proof. split; vm_compute; reflexivity. Qed.

(** * C45: false.  Full statement: the derived order of the variants is the order of their texts. *)

Definition C45_statement : Prop := forall g h,
  cmp_of LangTagT (Grandfathered_as_bytes g) (Grandfathered_as_bytes h) = Ret (Grandfathered_cmp g h).
Theorem C45_refuted : ~ C45_statement.
Proof. intros H. specialize (H ZhMin ZhMinNan). vm_compute in H. discriminate. Qed.
(** Among the irregular tags, and among the regular ones, it is, but for zh-min and zh-min-nan. *)
Theorem C45_grandfathered_order_partial : forall g h,
  (one_of irregular_tags (Grandfathered_as_bytes g) <-> one_of irregular_tags (Grandfathered_as_bytes h)) ->
  (cmp_of LangTagT (Grandfathered_as_bytes g) (Grandfathered_as_bytes h) = Ret (Grandfathered_cmp g h) <->
   ~ (g = ZhMin /\ h = ZhMinNan) /\ ~ (g = ZhMinNan /\ h = ZhMin)).
Proof.
  intros g h I. apply grandfathered_order. rewrite <- !language_none_irregular in I.
  destruct g, h; cbn in *; try reflexivity; exfalso; intuition discriminate.
Qed.
Print Assumptions C45_refuted.
Print Assumptions C45_grandfathered_order_partial.
Example C45_case :
  cmp_of LangTagT (bs "i-klingon") (bs "sgn-BE-FR") = Ret (Grandfathered_cmp IKlingon SgnBeFr) /\
  cmp_of LangTagT (bs "i-lux") (bs "art-lojban") = Ret Gt /\ Grandfathered_cmp ILux ArtLojban = Lt.
Proof. repeat split; vm_compute; reflexivity. Qed.
