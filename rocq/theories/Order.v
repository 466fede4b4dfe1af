(** Equality, order and hash of the newtypes and of the derived types (C18-C22, C41). *)
From Coq Require FinFun.
From Verif Require Import Base GrammarRs Validate Utils Grandfathered Normal LangTag Newtypes Derived Spec Observe
  RegexEquiv Accept AcceptTag Case CaseTag Direct Parse Scan Access Iter Kind Grammar.

Lemma eq_of_ci ty a b : eq_of ty a b = Ret (ci_eqb a b).
Proof. destruct ty; apply case_insensitive_eq_spec. Qed.
Lemma cmp_of_ci ty a b : cmp_of ty a b = Ret (ci_cmp a b).
Proof. destruct ty; apply case_insensitive_cmp_spec. Qed.
Lemma hash_of_ci ty H a st : hash_of ty H a st = fold_left (write_u8 H) (map lower a) st.
Proof. destruct ty; apply case_insensitive_hash_spec. Qed.

Lemma eq_of_true ty a b : eq_of ty a b = Ret true <-> same_ci a b.
Proof.
  rewrite eq_of_ci, <- ci_eqb_spec. split; [intros E; injection E; auto|intros ->; reflexivity].
Qed.
Lemma eq_of_false ty a b : eq_of ty a b = Ret false <-> ~ same_ci a b.
Proof.
  rewrite eq_of_ci, <- ci_eqb_false. split; [intros E; injection E; auto|intros ->; reflexivity].
Qed.
Lemma same_ci_pointwise a : forall b, same_ci a b <->
  length a = length b /\
  forall i x y, nth_error a i = Some x -> nth_error b i = Some y -> lower x = lower y.
Proof.
  induction a as [|x a IH]; intros [|y b].
  - split; [intros _; split; [reflexivity|intros [|i]; discriminate]|reflexivity].
  - split; [discriminate|intros [E _]; discriminate].
  - split; [discriminate|intros [E _]; discriminate].
  - rewrite same_ci_cons, IH. cbn [length]. split.
    + intros [E [L H]]. split; [congruence|]. intros [|i] u v; cbn [nth_error].
      * intros U V. injection U as <-. injection V as <-. exact E.
      * apply H.
    + intros [L H]. split; [exact (H 0 x y eq_refl eq_refl)|]. split; [congruence|].
      intros i u v U V. exact (H (S i) u v U V).
Qed.

Lemma eq_equivalence ty :
  (forall a, eq_of ty a a = Ret true) /\
  (forall a b, eq_of ty a b = eq_of ty b a) /\
  (forall a b c, eq_of ty a b = Ret true -> eq_of ty b c = Ret true -> eq_of ty a c = Ret true).
Proof.
  split; [|split].
  - intros a. apply eq_of_true, same_ci_refl.
  - intros a b. destruct (ci_eqb a b) eqn:E.
    + apply ci_eqb_spec in E. transitivity (Ret true); [|symmetry]; apply eq_of_true; auto using same_ci_sym.
    + apply ci_eqb_false in E. transitivity (Ret false); [|symmetry]; apply eq_of_false; [auto|].
      intros H. apply E, same_ci_sym, H.
  - intros a b c. rewrite !eq_of_true. apply same_ci_trans.
Qed.

Lemma cmp_total_order ty :
  (forall a b, exists c, cmp_of ty a b = Ret c /\ cmp_of ty b a = Ret (CompOpp c) /\
                         partial_cmp_of ty a b = Ret (Some c)) /\
  (forall a b, cmp_of ty a b = Ret Eq <-> eq_of ty a b = Ret true) /\
  (forall a b c, cmp_of ty a b = Ret Lt -> cmp_of ty b c = Ret Lt -> cmp_of ty a c = Ret Lt) /\
  (forall a b c, cmp_of ty a b = Ret Gt -> cmp_of ty b c = Ret Gt -> cmp_of ty a c = Ret Gt) /\
  (forall a a' b b', eq_of ty a a' = Ret true -> eq_of ty b b' = Ret true -> cmp_of ty a b = cmp_of ty a' b').
Proof.
  assert (Lt_trans : forall a b c, cmp_of ty a b = Ret Lt -> cmp_of ty b c = Ret Lt -> cmp_of ty a c = Ret Lt).
  { intros a b c. rewrite !cmp_of_ci. intros A B. injection A as A. injection B as B.
    rewrite (ci_cmp_lt_trans a b c A B). reflexivity. }
  split; [|split; [|split; [|split]]].
  - intros a b. exists (ci_cmp a b). rewrite !cmp_of_ci, (ci_cmp_antisym a b). split; [|split]; try reflexivity.
    destruct ty; cbn [partial_cmp_of]; rewrite cmp_of_ci; reflexivity.
  - intros a b. rewrite eq_of_true, cmp_of_ci, <- ci_cmp_eq.
    split; [intros E; injection E; auto|intros ->; reflexivity].
  - exact Lt_trans.
  - intros a b c A B. rewrite cmp_of_ci, ci_cmp_antisym. rewrite cmp_of_ci, ci_cmp_antisym in A, B.
    enough (ci_cmp c a = Lt) as -> by reflexivity.
    injection A as A. injection B as B.
    apply (ci_cmp_lt_trans c b a).
    + destruct (ci_cmp c b); try discriminate B; reflexivity.
    + destruct (ci_cmp b a); try discriminate A; reflexivity.
  - intros a a' b b'. rewrite !eq_of_true, !cmp_of_ci. intros A B. rewrite (ci_cmp_same a a' b b' A B). reflexivity.
Qed.

Lemma cmp_lex ty a b :
  (prefix (map lower a) (map lower b) -> same_ci a b) ->
  (prefix (map lower b) (map lower a) -> same_ci a b) ->
  cmp_of ty a b = Ret (lex (map lower a) (map lower b)).
Proof. intros A B. rewrite cmp_of_ci, (ci_cmp_lex a b A B). reflexivity. Qed.

Lemma cmp_prefix ty a b : prefix (map lower a) (map lower b) -> ~ same_ci a b ->
  cmp_of ty a b = Ret Gt /\ cmp_of ty b a = Ret Lt.
Proof.
  intros P N. rewrite !cmp_of_ci, (ci_cmp_antisym a b), (ci_cmp_prefix a b P N). split; reflexivity.
Qed.

(** * Hash *)

Lemma trace_fold l : forall st, fold_left (write_u8 trace_hasher) l st = st ++ l.
Proof.
  induction l as [|b l IH]; intros st; cbn [fold_left]; [symmetry; apply app_nil_r|].
  etransitivity; [apply IH|]. cbn [write_u8 trace_hasher]. rewrite <- app_assoc. reflexivity.
Qed.

Lemma hash_exact ty a b :
  (forall H st, hash_of ty H a st = hash_of ty H b st) <-> eq_of ty a b = Ret true.
Proof.
  rewrite eq_of_true. split.
  - intros E. specialize (E trace_hasher []). rewrite !hash_of_ci, !trace_fold in E. exact E.
  - intros E H st. rewrite !hash_of_ci. rewrite E. reflexivity.
Qed.

Lemma fed_lower ty a : fed ty a = map lower a.
Proof. unfold fed. rewrite hash_of_ci. apply trace_fold. Qed.
Lemma fed_eq ty a b : fed ty a = fed ty b <-> eq_of ty a b = Ret true.
Proof. rewrite eq_of_true, !fed_lower. reflexivity. Qed.

Definition lower_prefix_free (ty : newtype) : Prop := forall a b, accepted ty a -> accepted ty b ->
  prefix (map lower a) (map lower b) -> map lower a = map lower b.
Lemma prefix_free_lower ty : prefix_free ty <-> lower_prefix_free ty.
Proof.
  unfold prefix_free, lower_prefix_free. split; intros H a b A B P; specialize (H a b A B);
    rewrite !fed_lower in *; auto.
Qed.

Lemma prefix_length {a b : bytes} : prefix a b -> length a = length b -> a = b.
Proof.
  intros [c ->]. rewrite app_length. intros E. destruct c; [rewrite app_nil_r; reflexivity|cbn in E; lia].
Qed.

Lemma sized_fixed n p s : sized n n p s = true -> length s = n.
Proof. unfold sized. intros H. apply andb_true_iff in H as [H _]. apply andb_true_iff in H as [A B].
  apply Nat.leb_le in A. apply Nat.leb_le in B. lia. Qed.

Lemma lower_alpha_digit x y : is_alpha x = true -> is_digit y = true -> lower x <> lower y.
Proof. destruct x; try discriminate; intros _; destruct y; try discriminate. Qed.

Lemma letter_digit a b : sized 2 2 is_alpha a = true -> sized 3 3 is_digit b = true ->
  prefix (map lower a) (map lower b) -> False.
Proof.
  unfold sized. intros A B [c P]. apply andb_true_iff in A as [LA A]. apply andb_true_iff in B as [LB B].
  destruct a as [|x a]; [discriminate LA|]. destruct b as [|y b]; [discriminate LB|].
  cbn [forallb] in A, B. apply andb_true_iff in A as [A _]. apply andb_true_iff in B as [B _].
  cbn [map app] in P. injection P as P _. symmetry in P. exact (lower_alpha_digit x y A B P).
Qed.

Lemma prefix_free_three : lower_prefix_free ScriptT /\ lower_prefix_free RegionT /\ lower_prefix_free ExtendedLangTagT.
Proof.
  destruct direct_decided as (_ & _ & _ & _ & _ & _ & De & Ds & Dr & _).
  assert (L : forall a b, length a = length b -> prefix (map lower a) (map lower b) -> map lower a = map lower b).
  { intros a b L P. apply (prefix_length P). rewrite !map_length. exact L. }
  split; [|split]; intros a b A B.
  - apply (decides_ok _ _ _ Ds) in A, B. apply L. rewrite (sized_fixed _ _ _ A), (sized_fixed _ _ _ B). reflexivity.
  - apply (decides_ok _ _ _ Dr) in A, B. unfold is_true_of, region_ok in A, B.
    apply orb_true_iff in A, B. destruct A as [A|A], B as [B|B].
    + apply L. rewrite (sized_fixed _ _ _ A), (sized_fixed _ _ _ B). reflexivity.
    + intros P. exfalso. exact (letter_digit a b A B P).
    + intros P. exfalso. pose proof (sized_fixed _ _ _ A). pose proof (sized_fixed _ _ _ B).
      destruct P as [c P]. apply (f_equal (@length byte)) in P. rewrite app_length, !map_length in P. lia.
    + apply L. rewrite (sized_fixed _ _ _ A), (sized_fixed _ _ _ B). reflexivity.
  - apply (decides_ok _ _ _ De) in A, B. apply L. rewrite (sized_fixed _ _ _ A), (sized_fixed _ _ _ B). reflexivity.
Qed.

Lemma not_prefix_free ty a c :
  (accepts (automaton_of ty) a && accepts (automaton_of ty) (a ++ c) && negb (empty c)) = true ->
  ~ lower_prefix_free ty.
Proof.
  rewrite !andb_true_iff. intros [[A B] E] P.
  assert (H : In (automaton_of ty) all_automata) by (destruct ty; cbn; tauto).
  specialize (P a (a ++ c)).
  assert (Q : map lower a = map lower (a ++ c)).
  { apply P.
    - apply new_ok; [apply all_high, H|exact A].
    - apply new_ok; [apply all_high, H|exact B].
    - exists (map lower c). apply map_app. }
  apply (f_equal (@length byte)) in Q. rewrite !map_length, app_length in Q. destruct c; [discriminate E|cbn in Q; lia].
Qed.

Lemma prefix_free_exact ty : prefix_free ty <-> ty = ScriptT \/ ty = RegionT \/ ty = ExtendedLangTagT.
Proof.
  rewrite prefix_free_lower. pose proof prefix_free_three as (A & B & C). split.
  - intros P. destruct ty; auto; exfalso; revert P.
    + apply (not_prefix_free LangTagT (bs "fr") (bs "-FR")). vm_compute. reflexivity.
    + apply (not_prefix_free PrivateUseT (bs "x-a") (bs "-b")). vm_compute. reflexivity.
    + apply (not_prefix_free PrivateUseSubtagT (bs "a") (bs "b")). vm_compute. reflexivity.
    + apply (not_prefix_free NormalLangTagT (bs "fr") (bs "-FR")). vm_compute. reflexivity.
    + apply (not_prefix_free LanguageT (bs "fr") (bs "a")). vm_compute. reflexivity.
    + apply (not_prefix_free PrimaryLanguageT (bs "fr") (bs "a")). vm_compute. reflexivity.
    + apply (not_prefix_free LanguageExtensionT (bs "abc") (bs "-def")). vm_compute. reflexivity.
    + apply (not_prefix_free VariantT (bs "abcde") (bs "f")). vm_compute. reflexivity.
    + apply (not_prefix_free VariantsT (bs "abcde") (bs "-fghij")). vm_compute. reflexivity.
    + apply (not_prefix_free ExtensionT (bs "a-bb") (bs "b")). vm_compute. reflexivity.
    + apply (not_prefix_free ExtensionSubtagT (bs "bb") (bs "b")). vm_compute. reflexivity.
    + apply (not_prefix_free ExtensionsT (bs "a-bb") (bs "-b-cc")). vm_compute. reflexivity.
  - intros [-> | [-> | ->]]; assumption.
Qed.

(** Two different pairs of tags that no hasher tells apart. *)
Lemma pairs_collide (H : hasher) st :
  hash_of LangTagT H (bs "abcd") (hash_of LangTagT H (bs "en") st) =
  hash_of LangTagT H (bs "bcd") (hash_of LangTagT H (bs "ena") st).
Proof. rewrite !hash_of_ci. reflexivity. Qed.

(** * Derived implementations *)

Lemma Kind_discriminant_inj a b : Kind_discriminant a = Kind_discriminant b -> a = b.
Proof. destruct a, b; (reflexivity || discriminate). Qed.
Lemma Grandfathered_discriminant_inj a b : Grandfathered_discriminant a = Grandfathered_discriminant b -> a = b.
Proof. destruct a; destruct b; (reflexivity || discriminate). Qed.

(** A total order on values: decides equality, antisymmetric, transitive. *)
Lemma key_order {A} (key : A -> N) : (forall a b, key a = key b -> a = b) ->
  total_order (fun a b => (key a ?= key b)%N).
Proof.
  intros I. split; [|split].
  - intros a b. rewrite N.compare_eq_iff. split; [apply I|intros ->; reflexivity].
  - intros a b. apply N.compare_antisym.
  - intros a b c. rewrite !N.compare_lt_iff. apply N.lt_trans.
Qed.

Definition count_hasher : hasher := Hasher (list N) (fun l b => code b :: l) (fun l n => n :: l).

Lemma derived_kind :
  (forall a b, Kind_eq a b = true <-> a = b) /\ total_order Kind_cmp /\
  (forall a b, Kind_partial_cmp a b = Some (Kind_cmp a b)) /\
   Kind_cmp KNormal KPrivateUse = Lt /\ Kind_cmp KPrivateUse KGrandfathered = Lt /\
  (forall a b, (forall H st, Kind_hash H a st = Kind_hash H b st) <-> a = b).
Proof.
  repeat split; try apply (key_order Kind_discriminant Kind_discriminant_inj).
  - intros H. apply N.eqb_eq in H. apply Kind_discriminant_inj, H.
  - intros ->. apply N.eqb_refl.
  - intros E. specialize (E count_hasher []). injection E as E. apply Kind_discriminant_inj, E.
  - intros ->. reflexivity.
Qed.

Lemma derived_grandfathered :
  (forall a b, Grandfathered_eq a b = true <-> a = b) /\ total_order Grandfathered_cmp /\
  (forall a b, Grandfathered_partial_cmp a b = Some (Grandfathered_cmp a b)) /\
  (forall a b, (forall H st, Grandfathered_hash H a st = Grandfathered_hash H b st) <-> a = b).
Proof.
  repeat split; try apply (key_order Grandfathered_discriminant Grandfathered_discriminant_inj).
  - intros H. apply N.eqb_eq in H. apply Grandfathered_discriminant_inj, H.
  - intros ->. apply N.eqb_refl.
  - intros E. specialize (E count_hasher []). injection E as E. apply Grandfathered_discriminant_inj, E.
  - intros ->. reflexivity.
Qed.

Lemma derived_singleton :
  (forall a b, Singleton_eq a b = true <-> a = b) /\ total_order Singleton_cmp /\
  (forall a b, Singleton_partial_cmp a b = Some (Singleton_cmp a b)) /\
  (forall a b, (forall H st, Singleton_hash H a st = Singleton_hash H b st) <-> a = b).
Proof.
  repeat split; try apply (key_order code code_inj).
  - apply beq_true.
  - apply beq_true.
  - intros E. specialize (E count_hasher []). injection E as E. apply code_inj, E.
  - intros ->. reflexivity.
Qed.

(** Each registered tag is listed once, in the order of the discriminants. *)
Lemma grandfathered_listed :
  NoDup GRANDFATHERED /\ length GRANDFATHERED = 26 /\ (forall g, In g GRANDFATHERED) /\
   map Grandfathered_discriminant GRANDFATHERED = map N.of_nat (seq 0 26).
Proof.
  split; [|split; [|split]]; try reflexivity; [|exact GRANDFATHERED_all].
  apply (NoDup_map_inv Grandfathered_discriminant).
  change (map Grandfathered_discriminant GRANDFATHERED) with (map N.of_nat (seq 0 26)).
  apply FinFun.Injective_map_NoDup; [intros x y; apply Nnat.Nat2N.inj|apply seq_NoDup].
Qed.

Lemma Grandfathered_eq_text g h ty :
  Grandfathered_eq g h = true <-> eq_of ty (Grandfathered_as_bytes g) (Grandfathered_as_bytes h) = Ret true.
Proof.
  rewrite eq_of_true. rewrite (proj1 derived_grandfathered). split; [intros ->; reflexivity|apply gf_texts_distinct].
Qed.
