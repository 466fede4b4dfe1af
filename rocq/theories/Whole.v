(** Proofs about whole tags: walking them (C54), telling them apart (C55), ranges of the order (C56). *)
From Verif Require Import Base GrammarRs Validate Utils Grandfathered Normal LangTag Newtypes Derived Spec
  Observe RegexEquiv Accept AcceptTag Case CaseTag Direct Parse Scan Access Iter Kind Grammar Parts Compose Order
  Values More.

(** * 1. Walking a tag *)

Lemma walk_language s t : is_tag s t ->
  exists l, LangTag_language s = Ret (Some l) /\ Language_primary l = l_primary (t_language t) /\
    forall k, calls LanguageExtensionIter_next k (Language_extension_subtags l) =
              Ret (expected_next k (l_extlangs (t_language t))).
Proof.
  intros T. destruct (LangTag_normal s t T) as (E & _). rewrite (language_exact s t T) in E.
  exists (language_text (t_language t)). split; [exact E|]. destruct T as [T _]. apply tag_ok_parts in T as (L & _).
  split; [apply Language_primary_spec, L|]. intros k. rewrite LanguageExtensionIter_next_eq.
  apply segment_calls, Language_extension_subtags_spec, L.
Qed.

Lemma walk_variants s t : is_tag s t -> ends_by_region t = false ->
  exists v, LangTag_variants s = Ret v /\
    forall ops, calls_de VariantsIter_next VariantsIter_next_back ops (Variants_iter v) =
                Ret (deque_run ops (t_variants t)).
Proof.
  intros T R. destruct (LangTag_normal s t T) as (_ & _ & _ & E & _). rewrite (variants_exact s t T), R in E.
  exists (join (t_variants t)). split; [exact E|]. intros ops. destruct T as [T _].
  apply tag_ok_parts in T as (_ & _ & _ & V & _). apply variants_calls, Variants_iter_spec, V.
Qed.

Lemma walk_extensions s t : is_tag s t -> ends_by_variants t = false ->
  exists e, LangTag_extensions s = Ret e /\
    (forall k, calls ExtensionsIter_next k (Extensions_iter e) =
               Ret (expected_next k (map extension_text (t_extensions t)))) /\
    (forall c, Extensions_get e c =
               Ret (option_map extension_text (find (fun x => beq (e_singleton x) c) (t_extensions t)))) /\
    (forall x, In x (t_extensions t) ->
       Extension_singleton (extension_text x) = Ret (e_singleton x) /\
       forall k, calls ExtensionIter_next k (Extension_iter (extension_text x)) = Ret (expected_next k (e_subtags x))).
Proof.
  intros T R. destruct (LangTag_normal s t T) as (_ & _ & _ & _ & E & _). rewrite (extensions_exact s t T), R in E.
  exists (extensions_text (t_extensions t)). split; [exact E|]. destruct T as [T _].
  apply tag_ok_parts in T as (_ & _ & _ & _ & V & _). split; [|split].
  - intros k. apply extensions_calls, Extensions_iter_spec, V.
  - intros c. apply Extensions_get_spec, V.
  - intros x X. pose proof (in_forallb _ _ _ V X) as O. split; [destruct x as [b [|y l]]; reflexivity|].
    intros k. rewrite ExtensionIter_next_eq. apply segment_calls, Extension_iter_spec, O.
Qed.

(** * 2. Telling tags apart *)

Lemma nonempty_lower (x : bytes) : nonempty (map lower x) = nonempty x.
Proof. destruct x; reflexivity. Qed.
Lemma join_present_lower l : map lower (join_present l) = join_present (map (map lower) l).
Proof.
  unfold join_present. rewrite map_lower_join. f_equal.
  induction l as [|x l IH]; [reflexivity|]. cbn [filter map]. rewrite nonempty_lower.
  destruct (nonempty x); cbn [map]; rewrite IH; reflexivity.
Qed.
Lemma or_empty_lower x y : same_opt x y -> map lower (or_empty x) = map lower (or_empty y).
Proof. destruct x, y; cbn; intros H; try contradiction; auto. Qed.

Lemma ends_script_none t : ends_by_language t = true -> t_script t = None.
Proof. unfold ends_by_language. rewrite andb_true_iff, absent_none. tauto. Qed.
Lemma ends_region_none t : ends_by_script t = true -> t_region t = None.
Proof. unfold ends_by_script. rewrite andb_true_iff, absent_none. tauto. Qed.
Lemma ends_variants_none t : ends_by_region t = true -> t_variants t = [] /\ rest_subtags t = [].
Proof.
  rewrite <- empty_after_region. intros E. apply empty_nil in E. unfold after_region in E.
  apply app_eq_nil in E as [E E']. split; [exact E|exact E'].
Qed.
Lemma ends_rest_none t : ends_by_variants t = true -> rest_subtags t = [].
Proof. rewrite <- empty_after_variants. intros E. apply empty_nil in E. exact E. Qed.

Lemma tell_apart s s' t t' : is_tag s t -> is_tag s' t' ->
  same_outcome same_ci (NormalLangTag_language s) (NormalLangTag_language s') ->
  same_outcome same_opt (NormalLangTag_script s) (NormalLangTag_script s') ->
  same_outcome same_opt (NormalLangTag_region s) (NormalLangTag_region s') ->
  same_outcome same_ci (NormalLangTag_variants s) (NormalLangTag_variants s') ->
  same_outcome same_opt (NormalLangTag_private_use s) (NormalLangTag_private_use s') ->
  same_ci s s'.
Proof.
  intros H H'. rewrite (language_exact s t H), (language_exact s' t' H'), (script_exact s t H), (script_exact s' t' H'),
    (region_exact s t H), (region_exact s' t' H'), (variants_exact s t H), (variants_exact s' t' H'),
    (private_use_exact s t H), (private_use_exact s' t' H').
  intros L C R V P.
  destruct H as [O ->], H' as [O' ->]. unfold same_ci.
  rewrite <- (reassemble_rest t O), <- (reassemble_rest t' O'), !join_present_lower. f_equal. cbn [map].
  assert (EC : map lower (or_empty (t_script t)) = map lower (or_empty (t_script t'))).
  { destruct (ends_by_language t) eqn:E, (ends_by_language t') eqn:E'; cbn in C; try contradiction.
    - rewrite (ends_script_none t E), (ends_script_none t' E'). reflexivity.
    - apply or_empty_lower, C. }
  assert (ER : map lower (or_empty (t_region t)) = map lower (or_empty (t_region t'))).
  { destruct (ends_by_script t) eqn:E, (ends_by_script t') eqn:E'; cbn in R; try contradiction.
    - rewrite (ends_region_none t E), (ends_region_none t' E'). reflexivity.
    - apply or_empty_lower, R. }
  assert (EV : map lower (join (t_variants t)) = map lower (join (t_variants t')) /\
               map lower (join (rest_subtags t)) = map lower (join (rest_subtags t'))).
  { destruct (ends_by_region t) eqn:E, (ends_by_region t') eqn:E'; cbn in V, P; try contradiction.
    - destruct (ends_variants_none t E) as [-> ->], (ends_variants_none t' E') as [-> ->]. split; reflexivity.
    - split; [exact V|].
      destruct (ends_by_variants t) eqn:F, (ends_by_variants t') eqn:F'; cbn in P; try contradiction.
      + rewrite (ends_rest_none t F), (ends_rest_none t' F'). reflexivity.
      + exact P. }
  destruct EV as [EV EP]. repeat (apply f_equal2; [assumption|]). reflexivity.
Qed.

Lemma accessors_tell s s' t t' ty : is_tag s t -> is_tag s' t' ->
  (eq_of ty s s' = Ret true <->
   same_outcome same_ci (NormalLangTag_language s) (NormalLangTag_language s') /\
   same_outcome same_opt (NormalLangTag_script s) (NormalLangTag_script s') /\
   same_outcome same_opt (NormalLangTag_region s) (NormalLangTag_region s') /\
   same_outcome same_ci (NormalLangTag_variants s) (NormalLangTag_variants s') /\
   same_outcome same_opt (NormalLangTag_private_use s) (NormalLangTag_private_use s')).
Proof.
  intros T T'. rewrite eq_of_true. split.
  - intros E. destruct (accessors_case s s' t t' T T' E) as (A & B & C & D & _ & F). auto.
  - intros (A & B & C & D & F). exact (tell_apart s s' t t' T T' A B C D F).
Qed.

(** * 3. Values with a common prefix *)

Lemma prefix_cons x a y b : prefix (x :: a) (y :: b) <-> x = y /\ prefix a b.
Proof.
  split.
  - intros (c & E). injection E as -> ->. split; [reflexivity|]. exists c. reflexivity.
  - intros (-> & c & ->). exists c. reflexivity.
Qed.
Lemma prefix_cons_nil x a : ~ prefix (x :: a) [].
Proof. intros (c & E). discriminate E. Qed.
Lemma prefix_nil a : prefix [] a.
Proof. exists a. reflexivity. Qed.

Lemma prefix_between p : forall a b c, prefix p (map lower a) -> prefix p (map lower c) ->
  ci_cmp a b <> Gt -> ci_cmp b c <> Gt -> prefix p (map lower b).
Proof.
  induction p as [|x p IH]; intros a b c A C AB BC; [apply prefix_nil|].
  destruct a as [|y a]; [exfalso; exact (prefix_cons_nil _ _ A)|].
  destruct c as [|z c]; [exfalso; exact (prefix_cons_nil _ _ C)|].
  cbn [map] in A, C. apply prefix_cons in A as [-> A]. apply prefix_cons in C as [E C].
  destruct b as [|w b]; [exfalso; apply BC; reflexivity|]. cbn [map ci_cmp] in *.
  destruct (byte_cmp (lower y) (lower w)) eqn:E1; [| |congruence].
  - apply byte_cmp_eq in E1. apply prefix_cons. split; [exact E1|].
    rewrite <- E1, E in BC.
    assert (E2 : byte_cmp (lower z) (lower z) = Eq) by (apply byte_cmp_eq; reflexivity).
    rewrite E2 in BC. exact (IH a b c A C AB BC).
  - exfalso. unfold byte_cmp in *. rewrite E in E1.
    change (code (lower z) < code (lower w))%N in E1.
    destruct (code (lower w) ?= code (lower z))%N eqn:E2; [apply N.compare_eq_iff in E2; lia| |congruence].
    change (code (lower w) < code (lower z))%N in E2. lia.
Qed.

Lemma prefix_last p : forall a, prefix (map lower p) (map lower a) -> ci_cmp a p <> Gt.
Proof.
  induction p as [|x p IH]; intros [|y a] H; cbn [ci_cmp]; try discriminate.
  - exfalso. exact (prefix_cons_nil _ _ H).
  - cbn [map] in H. apply prefix_cons in H as [E H]. rewrite E.
    assert (R : byte_cmp (lower y) (lower y) = Eq) by (apply byte_cmp_eq; reflexivity).
    rewrite R. exact (IH a H).
Qed.

Lemma range_prefix ty a b c p : prefix (map lower p) (map lower a) -> prefix (map lower p) (map lower c) ->
  cmp_of ty a b <> Ret Gt -> cmp_of ty b c <> Ret Gt -> prefix (map lower p) (map lower b).
Proof.
  rewrite !cmp_of_ci. intros A C AB BC. apply (prefix_between _ a b c A C); congruence.
Qed.
Lemma range_last ty a p : prefix (map lower p) (map lower a) -> cmp_of ty a p <> Ret Gt.
Proof. rewrite cmp_of_ci. intros H. pose proof (prefix_last p a H). congruence. Qed.
