(** Proofs about whole iterations, positions, cuts, compositions and inclusions between the types. *)
From Verif Require Import Base GrammarRs Validate Utils Grandfathered Normal LangTag Newtypes Derived Spec Observe
  RegexEquiv Accept AcceptTag Case CaseTag Direct Parse Scan Access Iter Kind Grammar Parts Compose Order Values.

(** * 1. Whole iterations *)

Lemma collect_calls {I} (next : I -> outcome (option bytes * I)) l : forall it n,
  calls next (S (length l)) it = Ret (expected_next (S (length l)) l) -> length l < n ->
  collect next n it = Ret l.
Proof.
  induction l as [|x l IH]; intros it [|n] E N; try (cbn [length] in N; lia).
  - cbn [length calls expected_next] in E. cbn [collect]. destruct (next it) as [[o it']| |]; try discriminate.
    cbn [bind fst snd] in E |- *. injection E as ->. reflexivity.
  - cbn [length] in N. change (S (length (x :: l))) with (S (S (length l))) in E.
    remember (S (length l)) as k eqn:K. cbn [calls expected_next] in E. cbn [collect].
    destruct (next it) as [[o it']| |]; try discriminate. cbn [bind fst snd] in E |- *.
    destruct (calls next k it') as [rs| |] eqn:R; try discriminate. cbn [bind] in E. injection E as -> ->.
    subst k. rewrite (IH it' n R) by lia. reflexivity.
Qed.

Lemma calls_back {I} (next next_back : I -> outcome (option bytes * I)) k : forall it,
  calls_de next next_back (repeat Back k) it = calls next_back k it.
Proof.
  induction k as [|k IH]; intros it; [reflexivity|]. cbn [repeat calls_de calls].
  destruct (next_back it) as [[o it']| |]; [|reflexivity|reflexivity]. cbn [bind snd fst]. rewrite IH. reflexivity.
Qed.
Lemma calls_front {I} (next next_back : I -> outcome (option bytes * I)) k : forall it,
  calls_de next next_back (repeat Front k) it = calls next k it.
Proof.
  induction k as [|k IH]; intros it; [reflexivity|]. cbn [repeat calls_de calls].
  destruct (next it) as [[o it']| |]; [|reflexivity|reflexivity]. cbn [bind snd fst]. rewrite IH. reflexivity.
Qed.

Lemma deque_front {A} k : forall (l : list A), deque_run (repeat Front k) l = expected_next k l.
Proof.
  induction k as [|k IH]; intros l; [reflexivity|]. cbn [repeat deque_run expected_next].
  destruct l as [|x l]; cbn [pop_front]; rewrite IH; reflexivity.
Qed.
Lemma deque_back {A} k : forall (l : list A), deque_run (repeat Back k) l = expected_next k (rev l).
Proof.
  induction k as [|k IH]; intros l; [reflexivity|]. cbn [repeat deque_run expected_next].
  destruct (rev l) as [|x r] eqn:R.
  - apply (f_equal (@rev A)) in R. rewrite rev_involutive in R. subst l. cbn [rev pop_back]. rewrite IH. reflexivity.
  - apply (f_equal (@rev A)) in R. rewrite rev_involutive in R. subst l. cbn [rev]. rewrite pop_back_app, IH.
    rewrite rev_involutive. reflexivity.
Qed.

Lemma variants_collect l : variants_ok l = true -> forall n, length l < n ->
  collect VariantsIter_next n (Variants_iter (join l)) = Ret l /\
  collect VariantsIter_next_back n (Variants_iter (join l)) = Ret (rev l).
Proof.
  intros L n N. pose proof (Variants_iter_spec l L) as At. split; apply collect_calls.
  - rewrite <- (calls_front VariantsIter_next VariantsIter_next_back), (variants_calls _ _ _ At), deque_front.
    reflexivity.
  - exact N.
  - rewrite rev_length, <- (calls_back VariantsIter_next VariantsIter_next_back), (variants_calls _ _ _ At), deque_back.
    reflexivity.
  - rewrite rev_length. exact N.
Qed.

Lemma extensions_collect l : extensions_ok l = true -> forall n, length l < n ->
  collect ExtensionsIter_next n (Extensions_iter (extensions_text l)) = Ret (map extension_text l).
Proof.
  intros L n N. apply collect_calls; rewrite map_length; [|exact N].
  apply extensions_calls, Extensions_iter_spec, L.
Qed.
Lemma segment_collect it l : at_segs it l -> forall n, length l < n -> collect segment_next n it = Ret l.
Proof. intros At n N. apply collect_calls; [|exact N]. apply segment_calls, At. Qed.

Lemma variants_first_last l : variants_ok l = true ->
  Variants_first (join l) = Ret (first_of l) /\ Variants_last (join l) = Ret (last_of l).
Proof.
  intros L. pose proof (Variants_iter_spec l L) as At. split.
  - pose proof (variants_calls [Front] _ _ At) as E. cbn [calls_de deque_run] in E. unfold Variants_first, omap.
    destruct (VariantsIter_next _) as [[o it]| |]; try (destruct l; discriminate). cbn [bind fst snd] in E |- *.
    unfold first_of. destruct l; cbn [pop_front hd_error] in E |- *; injection E as ->; reflexivity.
  - pose proof (variants_calls (repeat Back 1) _ _ At) as E. rewrite deque_back in E. cbn [repeat calls_de expected_next] in E.
    unfold Variants_last, omap, last_of. destruct (VariantsIter_next_back _) as [[o it]| |];
      try (destruct (rev l); discriminate). cbn [bind fst snd] in E |- *.
    destruct (rev l); cbn [hd_error]; injection E as ->; reflexivity.
Qed.

Lemma iter_extension_spec l c k : extensions_ok l = true ->
  (let! it := Extensions_iter_extension (extensions_text l) c in calls ExtensionIter_next k it) =
  Ret (expected_next k match find (fun e => beq (e_singleton e) c) l with
                       | Some e => e_subtags e | None => [] end).
Proof.
  intros L. unfold Extensions_iter_extension. rewrite (Extensions_get_spec l c L). rewrite ExtensionIter_next_eq.
  destruct (find _ l) as [e|] eqn:F; cbn [option_map bind].
  - apply find_some in F as [F _]. apply segment_calls, Extension_iter_spec. exact (in_forallb _ _ _ L F).
  - apply segment_calls, iter_default_at.
Qed.

Lemma default_empty :
  (forall k, calls PrivateUseIter_next k iter_default = Ret (repeat None k)) /\
  (forall k, calls ExtensionIter_next k iter_default = Ret (repeat None k)) /\
  (forall k, calls LanguageExtensionIter_next k iter_default = Ret (repeat None k)) /\
  (forall ops, calls_de VariantsIter_next VariantsIter_next_back ops viter_default = Ret (repeat None (length ops))).
Proof.
  repeat split; [intros k; induction k as [|k IH]..|intros ops; induction ops as [|op ops IH]]; try reflexivity.
  1-3: cbn [calls repeat]; change (_ iter_default) with (Ret (None : option bytes, iter_default));
    cbn [bind fst snd]; rewrite IH; reflexivity.
  destruct op; cbn [calls_de repeat length]; change (_ viter_default) with (Ret (None : option bytes, viter_default));
    cbn [bind fst snd]; rewrite IH; reflexivity.
Qed.

(** * 2. Positions *)

Lemma slice_sub s a b x : slice s a b = Ret x -> x = sub s a b.
Proof. unfold slice, sub. destruct (_ && _); intros E; [injection E as <-; reflexivity|discriminate]. Qed.

Lemma sub_nonempty s a b : nonempty (sub s a b) = true -> a < b.
Proof.
  unfold sub. destruct (Nat.ltb_spec a b) as [L|L]; [auto|]. replace (b - a) with 0 by lia. discriminate.
Qed.

Lemma component_value_range i s x : component_value i s = Ret (Some x) ->
  exists a b, component_range i s = Ret (Some (a, b)) /\ x = sub s a b.
Proof.
  destruct i as [|[|[|[|i]]]]; cbn [component_value component_range].
  - unfold NormalLangTag_language. destruct (language_end s) as [e| |]; try discriminate. cbn [bind]. unfold slice_to.
    destruct (_ && _); cbn [bind]; intros E; [|discriminate]. injection E as <-. exists 0, e. split; [reflexivity|].
    unfold sub. rewrite Nat.sub_0_r. reflexivity.
  - unfold NormalLangTag_script. destruct (script_range s) as [[[a b]|e]| |]; cbn [bind]; try discriminate.
    destruct (slice s a b) as [y| |] eqn:E; cbn; try discriminate. intros [= <-]. exists a, b.
    split; [reflexivity|]. apply slice_sub, E.
  - unfold NormalLangTag_region. destruct (region_range s) as [[[a b]|e]| |]; cbn [bind]; try discriminate.
    destruct (slice s a b) as [y| |] eqn:E; cbn; try discriminate. intros [= <-]. exists a, b.
    split; [reflexivity|]. apply slice_sub, E.
  - unfold NormalLangTag_variants. destruct (variants_range s) as [[a b]| |]; cbn [bind fst snd]; try discriminate.
    destruct (slice s a b) as [y| |] eqn:E; cbn [bind]; try discriminate. apply slice_sub in E. subst y.
    destruct (nonempty (sub s a b)) eqn:N; intros [= <-]. exists a, b. split; [|reflexivity].
    apply sub_nonempty in N. apply Nat.ltb_lt in N. rewrite N. reflexivity.
  - unfold NormalLangTag_extensions. destruct (extensions_range s) as [[a b]| |]; cbn [bind fst snd]; try discriminate.
    destruct (slice s a b) as [y| |] eqn:E; cbn [bind]; try discriminate. apply slice_sub in E. subst y.
    destruct (nonempty (sub s a b)) eqn:N; intros [= <-]. exists a, b. split; [|reflexivity].
    apply sub_nonempty in N. apply Nat.ltb_lt in N. rewrite N. reflexivity.
Qed.

Lemma positions s t : is_tag s t ->
  (forall i x, component_value i s = Ret (Some x) ->
     exists a b, component_range i s = Ret (Some (a, b)) /\ x = sub s a b /\ aligned s a b) /\
  (forall i j a b c d, i < j < 5 -> component_range i s = Ret (Some (a, b)) -> component_range j s = Ret (Some (c, d)) ->
     b < c).
Proof.
  intros T. split.
  - intros i x E. apply component_value_range in E as (a & b & E & ->). exists a, b.
    split; [exact E|]. split; [reflexivity|]. eapply component_aligned; eauto.
  - intros i j a b c d [L M] E F. eapply components_ordered; [exact T|exact L|exact M|exact E|exact F].
Qed.

Lemma upto_cut t :
  upto_language t = tag_text (cut_at AfterLanguage t) /\ upto_script t = tag_text (cut_at AfterScript t) /\
  upto_region t = tag_text (cut_at AfterRegion t) /\
  upto_variants t = tag_text (cut_at (AfterVariants (length (t_variants t))) t) /\
  upto_extensions t = tag_text (cut_at (AfterExtensions (length (t_extensions t))) t).
Proof.
  unfold upto_extensions, upto_variants, upto_region, upto_script, upto_language.
  repeat split; cbn [cut_at]; rewrite cut_extensions; unfold upto_extensions, upto_variants, upto_region, upto_script,
    upto_language, after_extensions; cbn [t_language t_script t_region t_variants t_extensions t_private opt_parts
    opt_list flat_map dtail]; rewrite ?firstn_all, ?app_nil_r; reflexivity.
Qed.

Lemma ranges_exact s t : is_tag s t ->
  let upto c := length (tag_text (cut_at c t)) in
  let after_variants := AfterVariants (length (t_variants t)) in
  let after_extensions := AfterExtensions (length (t_extensions t)) in
  language_end s = Ret (upto AfterLanguage) /\
  script_range s = (if ends_by_language t then Panic else
    Ret (if absent (t_script t) then Err (upto AfterLanguage) else Ok (upto AfterLanguage + 1, upto AfterScript))) /\
  region_range s = (if ends_by_script t then Panic else
    Ret (if absent (t_region t) then Err (upto AfterScript) else Ok (upto AfterScript + 1, upto AfterRegion))) /\
  variants_range s = (if ends_by_region t then Panic else
    Ret (if empty (t_variants t) then (upto AfterRegion, upto AfterRegion)
         else (upto AfterRegion + 1, upto after_variants))) /\
  extensions_range s = (if ends_by_variants t then Panic else
    Ret (if empty (t_extensions t) then (upto after_variants, upto after_variants)
         else (upto after_variants + 1, upto after_extensions))) /\
  private_use_offset s = (if ends_by_region t then Panic else
    Ret (if ends_by_variants t then None else Some (upto after_variants + 1))).
Proof.
  intros [T ->]. cbv zeta. pose proof (upto_cut t) as (<- & <- & <- & <- & <-).
  rewrite (language_end_spec t T), (script_range_spec t T), (region_range_spec t T), (variants_range_spec t T),
    (extensions_range_spec t T), (private_use_offset_spec t T).
  rewrite !match_empty, empty_after_language, empty_after_script, empty_after_region, empty_after_variants.
  split; [reflexivity|]. split.
  { destruct (ends_by_language t), (t_script t) eqn:E; try reflexivity; unfold upto_script; rewrite E; cbn [range_of absent opt_list dtail flat_map];
    rewrite app_length; cbn [length app]; rewrite app_nil_r; do 3 f_equal; lia. }
  split.
  { destruct (ends_by_script t), (t_region t) eqn:E; try reflexivity; unfold upto_region; rewrite E; cbn [range_of absent opt_list dtail flat_map];
    rewrite app_length; cbn [length app]; rewrite app_nil_r; do 3 f_equal; lia. }
  split; [destruct (ends_by_region t), (t_variants t) eqn:E; try reflexivity; unfold upto_variants; rewrite E; reflexivity|].
  split; [|destruct (ends_by_region t), (ends_by_variants t); reflexivity].
  destruct (ends_by_variants t), (t_extensions t) eqn:E; try reflexivity; unfold upto_extensions; rewrite E; reflexivity.
Qed.

(** * 3. Cuts *)

Lemma cut_at_ok c t : tag_ok t = true -> tag_ok (cut_at c t) = true.
Proof.
  intros T. destruct c; cbn [cut_at]; apply keep_ok; auto; first [exists 0; reflexivity | exists k; reflexivity | idtac].
  exists (length (t_variants t)). symmetry. apply firstn_all.
Qed.
Lemma cut_at_prefix c t : exists q, tag_text t = tag_text (cut_at c t) ++ q.
Proof.
  pose proof (keep_prefix t) as (A & B & C & D). destruct c; cbn [cut_at]; [exact A|exact B|exact (C 0)|exact (C k)|exact (D k)].
Qed.
Lemma cut_spec s t c : is_tag s t ->
  is_tag (tag_text (cut_at c t)) (cut_at c t) /\
  accepted NormalLangTagT (tag_text (cut_at c t)) /\ prefix (tag_text (cut_at c t)) s /\
  NormalLangTag_language (tag_text (cut_at c t)) = NormalLangTag_language s.
Proof.
  intros T. pose proof T as [O E]. pose proof (cut_at_ok c t O) as O'.
  assert (T' : is_tag (tag_text (cut_at c t)) (cut_at c t)) by (split; [exact O'|reflexivity]).
  split; [exact T'|]. split; [apply accepted_normal; eauto|]. split.
  - rewrite E. apply cut_at_prefix.
  - rewrite (language_exact _ _ T), (language_exact _ _ T'). destruct c; reflexivity.
Qed.

Lemma drop_singles_skip l : exists n, drop_singles l = skipn n l /\ n <= length l /\
  match drop_singles l with [] => True | x :: _ => length x <> 1 end.
Proof.
  induction l as [|x l (n & E & N & H)]; [exists 0; repeat split; auto|]. cbn [drop_singles].
  destruct (Nat.eqb_spec (length x) 1) as [L|L].
  - exists (S n). cbn [skipn length]. split; [exact E|]. split; [lia|exact H].
  - exists 0. cbn [skipn length]. split; [reflexivity|]. split; [lia|exact L].
Qed.

Lemma tag_head t : tag_ok t = true -> exists (a b : byte) (w : bytes) (u : list bytes), tag_subtags t = (a :: b :: w : bytes) :: u.
Proof.
  intros T. apply tag_ok_parts in T as (L & _). destruct (language_subtags_head _ L) as (a & b & w & u & E).
  exists a, b, w. eexists. unfold tag_subtags. rewrite E. cbn [app]. reflexivity.
Qed.

Lemma drop_singles_keeps l x : length x <> 1 -> drop_singles (l ++ [x]) <> [].
Proof.
  intros N. induction l as [|y l IH]; cbn [app drop_singles].
  - apply Nat.eqb_neq in N. rewrite N. discriminate.
  - destruct (length y =? 1); [exact IH|discriminate].
Qed.

Lemma truncate_spec s t : is_tag s t ->
  (lookup_truncate (tag_subtags t) = [] <-> length (tag_subtags t) = 1) /\
  (lookup_truncate (tag_subtags t) <> [] ->
   accepted NormalLangTagT (join (lookup_truncate (tag_subtags t))) /\
   length (lookup_truncate (tag_subtags t)) < length (tag_subtags t) /\
   exists l, l <> [] /\ tag_subtags t = lookup_truncate (tag_subtags t) ++ l).
Proof.
  intros [T _]. destruct (tag_head t T) as (a & b & w & u & E). unfold lookup_truncate.
  set (l := tag_subtags t) in *.
  assert (Hd : drop_singles (tl (rev l)) = [] <-> length l = 1).
  { rewrite E. cbn [rev]. destruct (rev u) as [|y r] eqn:R.
    - apply (f_equal (@rev _)) in R. rewrite rev_involutive in R. subst u. cbn. tauto.
    - cbn [app tl]. split.
      + intros H. exfalso. revert H. apply drop_singles_keeps. cbn [length]. lia.
      + intros H. apply (f_equal (@length _)) in R. rewrite rev_length in R. cbn [length] in *. lia. }
  split.
  - rewrite <- Hd. split.
    + intros H. apply (f_equal (@rev _)) in H. rewrite rev_involutive in H. exact H.
    + intros ->. reflexivity.
  - intros N. destruct (drop_singles_skip (tl (rev l))) as (n & D & Hn & H1).
    set (d := drop_singles (tl (rev l))) in *.
    assert (Dn : d = skipn (S n) (rev l)). { rewrite D. destruct (rev l); [destruct n; reflexivity|reflexivity]. }
    assert (P : l = rev d ++ rev (firstn (S n) (rev l))).
    { rewrite Dn, <- rev_app_distr, firstn_skipn, rev_involutive. reflexivity. }
    set (q := rev (firstn (S n) (rev l))) in *.
    assert (Q : q <> []).
    { unfold q. destruct (rev l) as [|y r] eqn:R.
      - exfalso. apply (f_equal (@rev _)) in R. rewrite rev_involutive, E in R. discriminate.
      - cbn [firstn rev]. intros K. apply app_eq_nil in K as [_ K]. discriminate. }
    clearbody q. assert (Len : length l = length (rev d) + length q) by (rewrite P at 1; apply app_length).
    assert (Q1 : 1 <= length q) by (destruct q; [contradiction|cbn [length]; lia]).
    assert (D1 : 1 <= length (rev d)).
    { destruct (rev d) as [|y r]; [contradiction|cbn [length]; lia]. }
    split; [|split; [lia|exists q; split; [exact Q|exact P]]].
    assert (F : firstn (length (rev d)) l = rev d).
    { rewrite P. rewrite firstn_app, Nat.sub_diag, firstn_all. cbn [firstn]. apply app_nil_r. }
    rewrite <- F. unfold l. rewrite <- cut_tag_subtags by exact D1. apply accepted_normal.
    exists (cut_tag (length (rev d)) t). split; [|reflexivity]. apply cut_tag_ok; [exact T|fold l; lia|].
    fold l. intros x X. pose proof (segs_tag t T) as G. fold l in G.
    rewrite P in X. rewrite nth_error_app1 in X by lia.
    assert (Hx : d = x :: tl d).
    { destruct d as [|y d']; [cbn [rev length] in D1; lia|]. cbn [tl]. f_equal. cbn [rev] in X.
      rewrite app_length in X. cbn [length] in X. rewrite nth_error_app2 in X by lia.
      replace (length (rev d') + 1 - 1 - length (rev d')) with 0 in X by lia. cbn in X. congruence. }
    rewrite Hx in H1. assert (I : In x l).
    { rewrite P. apply in_app_iff. left. apply -> in_rev. rewrite Hx. left. reflexivity. }
    pose proof (in_forallb _ _ _ G I) as S1. apply seg_length in S1. lia.
Qed.

(** * 4. Composition *)

Lemma nonempty_present (ls : list (list bytes)) : forallb (forallb seg_ok) ls = true ->
  nonempty (join_present (map join ls)) = negb (forallb empty ls).
Proof.
  intros H. rewrite join_present_app by exact H. 
  assert (E : empty (concat ls) = forallb empty ls).
  { clear H. induction ls as [|l ls IH]; [reflexivity|]. cbn [concat forallb]. rewrite empty_app, IH. reflexivity. }
  rewrite <- E. destruct (concat ls) as [|x l] eqn:C; [reflexivity|]. cbn [empty negb]. apply join_nonempty; [discriminate|].
  rewrite <- C. clear -H. induction ls as [|a ls IH]; [reflexivity|]. cbn [concat forallb] in *.
  apply andb_true_iff in H as [H1 H2]. rewrite forallb_app, H1, (IH H2). reflexivity.
Qed.

Lemma composition_ends t : tag_ok t = true ->
  let c := or_empty (t_script t) in let r := or_empty (t_region t) in let v := join (t_variants t) in
  let e := extensions_text (t_extensions t) in let p := or_empty (option_map private_text (t_private t)) in
  nonempty (join_present [c; r; v; e; p]) = negb (ends_by_language t) /\
  nonempty (join_present [r; v; e; p]) = negb (ends_by_script t) /\
  nonempty (join_present [v; e; p]) = negb (ends_by_region t) /\
  nonempty (join_present [e; p]) = negb (ends_by_variants t).
Proof.
  intros H c r v e p. pose proof (tag_segs t H) as S.
  replace c with (join (opt_list (t_script t))) by (symmetry; apply or_empty_join).
  replace r with (join (opt_list (t_region t))) by (symmetry; apply or_empty_join).
  replace p with (join (opt_parts private_parts (t_private t))) by (unfold p; destruct (t_private t); reflexivity).
  unfold v, e. change (extensions_text (t_extensions t)) with (join (flat_map extension_parts (t_extensions t))).
  cbn [forallb] in S. rewrite !andb_true_r, !andb_true_iff in S. destruct S as (_ & S1 & S2 & S3 & S4 & S5).
  assert (X : empty (flat_map extension_parts (t_extensions t)) = empty (t_extensions t)) by (destruct (t_extensions t); reflexivity).
  assert (Y : empty (opt_parts private_parts (t_private t)) = absent (t_private t)) by (destruct (t_private t); reflexivity).
  unfold ends_by_language, ends_by_script, ends_by_region, ends_by_variants. rewrite <- X, <- Y, <- !empty_opt_list.
  repeat split.
  1: change [_; _; _; _; _] with (map join [opt_list (t_script t); opt_list (t_region t); t_variants t; flat_map extension_parts (t_extensions t); opt_parts private_parts (t_private t)]).
  2: change [_; _; _; _] with (map join [opt_list (t_region t); t_variants t; flat_map extension_parts (t_extensions t); opt_parts private_parts (t_private t)]).
  3: change [_; _; _] with (map join [t_variants t; flat_map extension_parts (t_extensions t); opt_parts private_parts (t_private t)]).
  4: change [_; _] with (map join [flat_map extension_parts (t_extensions t); opt_parts private_parts (t_private t)]).
  all: rewrite nonempty_present by (cbn [forallb]; rewrite ?S1, ?S2, ?S3, ?S4, ?S5; reflexivity); cbn [forallb];
    rewrite andb_true_r; reflexivity.
Qed.

Lemma composition_spec l c r v e p :
  accepted LanguageT l -> accepted_opt ScriptT c -> accepted_opt RegionT r -> accepted VariantsT v ->
  accepted ExtensionsT e -> accepted_opt PrivateUseT p ->
  let s := join_present [l; or_empty c; or_empty r; v; e; or_empty p] in
  accepted NormalLangTagT s /\
  NormalLangTag_language s = Ret l /\
  NormalLangTag_script s = (if nonempty (join_present [or_empty c; or_empty r; v; e; or_empty p]) then Ret c else Panic) /\
  NormalLangTag_region s = (if nonempty (join_present [or_empty r; v; e; or_empty p]) then Ret r else Panic) /\
  NormalLangTag_variants s = (if nonempty (join_present [v; e; or_empty p]) then Ret v else Panic) /\
  NormalLangTag_extensions s = (if nonempty (join_present [e; or_empty p]) then Ret e else Panic) /\
  (e = [] -> NormalLangTag_private_use s = if nonempty (join_present [v; or_empty p]) then Ret p else Panic) /\
  exists t, is_tag s t /\ language_text (t_language t) = l /\ t_script t = c /\ t_region t = r /\
    join (t_variants t) = v /\ extensions_text (t_extensions t) = e /\ option_map private_text (t_private t) = p.
Proof.
  intros Al Ac Ar Av Ae Ap s. destruct (composition l c r v e p) as (t & T & El & Ec & Er & Ev & Ee & Ep); auto.
  fold s in T. split; [apply accepted_normal; eauto|]. pose proof (composition_ends t (proj1 T)) as C. cbv zeta in C.
  rewrite Ec, Er, Ev, Ee, Ep in C. destruct C as (C1 & C2 & C3 & C4). rewrite C1, C2, C3, C4.
  split; [rewrite (language_exact s t T), El; reflexivity|].
  split; [rewrite (script_exact s t T), Ec; destruct (ends_by_language t); reflexivity|].
  split; [rewrite (region_exact s t T), Er; destruct (ends_by_script t); reflexivity|].
  split; [rewrite (variants_exact s t T), Ev; destruct (ends_by_region t); reflexivity|].
  split; [rewrite (extensions_exact s t T), Ee; destruct (ends_by_variants t); reflexivity|].
  split; [|exists t; auto 8].
  intros En. subst e. change (join_present [v; or_empty p]) with (join_present [v; [] : bytes; or_empty p]).
  rewrite En in C3. rewrite C3.
  destruct (ends_by_region t) eqn:R; [rewrite (private_use_exact s t T), R; reflexivity|].
  rewrite (private_use_no_ext s t T), Ep; auto.
  apply extensions_text_inj; auto. apply tag_ok_parts, T.
Qed.

(** * 5. Concatenation *)

Lemma join_present_two a b : forallb seg_ok a = true -> forallb seg_ok b = true ->
  join_present [join a; join b] = join (a ++ b).
Proof.
  intros A B. assert (E : concat [a; b] = a ++ b) by (cbn [concat]; rewrite app_nil_r; reflexivity).
  rewrite <- E. apply (join_present_app [a; b]). cbn [forallb]. rewrite A, B. reflexivity.
Qed.

Lemma variants_concat l m : variants_ok l = true -> variants_ok m = true ->
  join_present [join l; join m] = join (l ++ m) /\ variants_ok (l ++ m) = true.
Proof.
  intros L M. split; [apply join_present_two; apply segs_variants; auto|].
  unfold variants_ok. rewrite forallb_app. apply andb_true_iff. auto.
Qed.
Lemma extensions_concat l m : extensions_ok l = true -> extensions_ok m = true ->
  join_present [extensions_text l; extensions_text m] = extensions_text (l ++ m) /\ extensions_ok (l ++ m) = true.
Proof.
  intros L M. split.
  - unfold extensions_text. rewrite flat_map_app. apply join_present_two; apply segs_extensions; auto.
  - unfold extensions_ok. rewrite forallb_app. apply andb_true_iff. auto.
Qed.

Lemma find_app {A} (p : A -> bool) a b : find p (a ++ b) = match find p a with Some x => Some x | None => find p b end.
Proof. induction a as [|x a IH]; [reflexivity|]. cbn [app find]. destruct (p x); auto. Qed.

Lemma get_concat e f c : accepted ExtensionsT e -> accepted ExtensionsT f ->
  accepted ExtensionsT (join_present [e; f]) /\
  Extensions_get (join_present [e; f]) c =
  let! x := Extensions_get e c in match x with Some y => Ret (Some y) | None => Extensions_get f c end.
Proof.
  intros A B. apply accepted_extensions in A as (l & L & ->). apply accepted_extensions in B as (m & M & ->).
  destruct (extensions_concat l m L M) as [-> O]. split; [apply accepted_extensions; exists (l ++ m); auto|].
  rewrite !Extensions_get_spec by assumption. rewrite find_app. cbn [bind]. destruct (find _ l); reflexivity.
Qed.

Lemma variants_iter_concat v w ops : accepted VariantsT v -> accepted VariantsT w ->
  exists l m, v = join l /\ w = join m /\ variants_ok l = true /\ variants_ok m = true /\
    accepted VariantsT (join_present [v; w]) /\
    calls_de VariantsIter_next VariantsIter_next_back ops (Variants_iter (join_present [v; w])) =
    Ret (deque_run ops (l ++ m)).
Proof.
  intros A B. apply accepted_variants in A as (l & L & ->). apply accepted_variants in B as (m & M & ->).
  exists l, m. destruct (variants_concat l m L M) as [-> O]. do 4 (split; [auto|]).
  split; [apply accepted_variants; exists (l ++ m); auto|]. apply variants_calls, Variants_iter_spec, O.
Qed.

(** * 6. Inclusions between the types *)

Lemma accepted_tag s : accepted LangTagT s <-> matches abnf_Language_Tag s.
Proof. exact (decides_ok _ _ s tag_decides). Qed.

Lemma accepted_normal_tag s : accepted NormalLangTagT s -> accepted LangTagT s.
Proof.
  intros A. apply accepted_tag. apply (decides_ok _ _ s (proj1 (proj2 (proj2 productions_decided)))) in A.
  unfold abnf_Language_Tag. cbn [alts]. apply m_alt_l. exact A.
Qed.
Lemma accepted_private_tag s : accepted PrivateUseT s -> accepted LangTagT s.
Proof.
  intros A. apply accepted_tag. apply (decides_ok _ _ s (proj1 productions_decided)) in A.
  unfold abnf_Language_Tag. cbn [alts]. apply m_alt_r, m_alt_l. exact A.
Qed.
Lemma irregular_tag s : one_of irregular_tags s -> accepted LangTagT s.
Proof.
  intros I. apply irregular_iff in I as (g & _ & G). apply gf_find_spec in G.
  assert (E : new_is_ok LanguageTag s = Ret true).
  { rewrite (validation_case LanguageTag s (Grandfathered_as_bytes g)); [|left; reflexivity|exact G].
    destruct g; vm_compute; reflexivity. }
  unfold accepted, new_of. cbn [automaton_of]. rewrite new_tag. unfold new_is_ok in E. rewrite new_tag in E. cbn [bind] in E.
  destruct (accepts LanguageTag s); [reflexivity|discriminate].
Qed.
Lemma tag_cases s : accepted LangTagT s ->
  accepted NormalLangTagT s \/ accepted PrivateUseT s \/ one_of irregular_tags s.
Proof.
  intros A. destruct (classification s A) as [H|[H|H]].
  - left. exact (proj2 (decides_ok _ _ s (proj1 (proj2 (proj2 productions_decided)))) (proj1 H)).
  - right. left. exact (proj2 (decides_ok _ _ s (proj1 productions_decided)) (proj1 (proj2 H))).
  - right. right. apply H.
Qed.

Lemma language_only l : language_ok l = true -> is_tag (language_text l) (Tag l None None [] [] None).
Proof.
  intros L. split; [apply tag_ok_parts; cbn; auto 8|]. unfold tag_text, tag_subtags, language_text. cbn.
  rewrite app_nil_r. reflexivity.
Qed.

Lemma inclusions s :
  (accepted NormalLangTagT s -> accepted LangTagT s) /\
  (accepted PrivateUseT s -> accepted LangTagT s) /\
  (accepted LanguageT s -> accepted NormalLangTagT s) /\
  (accepted PrimaryLanguageT s -> accepted LanguageT s) /\
  (accepted ScriptT s -> accepted LanguageT s) /\
  (accepted ExtendedLangTagT s -> accepted LanguageExtensionT s) /\
  (accepted ExtendedLangTagT s -> accepted PrimaryLanguageT s) /\
  (accepted VariantT s -> accepted VariantsT s) /\
  (accepted ExtensionT s -> accepted ExtensionsT s) /\
  (accepted ExtensionSubtagT s -> accepted PrivateUseSubtagT s) /\
  (accepted VariantT s -> accepted ExtensionSubtagT s).
Proof.
  split; [apply accepted_normal_tag|]. split; [apply accepted_private_tag|].
  split. { rewrite accepted_language, accepted_normal. intros (l & L & ->). eexists. apply language_only, L. }
  split. { rewrite accepted_primary, accepted_language. intros P. exists (Lang s []). split; [|reflexivity].
           unfold language_ok. cbn [l_primary l_extlangs]. rewrite P. reflexivity. }
  split. { rewrite accepted_script, accepted_language. intros P. exists (Lang s []). split; [|reflexivity].
           unfold language_ok. cbn [l_primary l_extlangs]. apply orb_true_iff. right. rewrite andb_true_r.
           unfold script_ok in P. apply sized_spec in P. apply sized_spec. intuition lia. }
  split. { rewrite accepted_extlang_tag, accepted_extlang. intros P. exists [s]. split; [|reflexivity].
           unfold extlangs_ok. cbn [length forallb]. rewrite P. reflexivity. }
  split. { rewrite accepted_extlang_tag, accepted_primary. unfold extlang_tag_ok, primary_ok. rewrite !sized_spec.
           intuition lia. }
  split. { rewrite accepted_variant, accepted_variants. intros P. exists [s]. split; [|reflexivity].
           unfold variants_ok. cbn [forallb]. rewrite P. reflexivity. }
  split. { rewrite accepted_extension, accepted_extensions. intros (e & P & ->). exists [e]. split.
           - unfold extensions_ok. cbn [forallb]. rewrite P. reflexivity.
           - unfold extensions_text. cbn [flat_map]. rewrite app_nil_r. reflexivity. }
  split. { rewrite accepted_ext_subtag, accepted_pu_subtag. unfold ext_subtag_ok, pu_subtag_ok. rewrite !sized_spec.
           intuition lia. }
  rewrite accepted_variant, accepted_ext_subtag. unfold ext_subtag_ok, variant_ok. rewrite sized_spec.
  intros P. apply orb_true_iff in P as [P|P]; [|apply andb_true_iff in P as [P _]]; apply sized_spec in P;
    intuition lia.
Qed.

(** * 7. Letter case of whole tags *)

Lemma accepted_ci ty s s' : same_ci s s' -> (accepted ty s <-> accepted ty s').
Proof.
  intros E. pose proof (validation_case (automaton_of ty) s s') as V.
  assert (I : In (automaton_of ty) all_automata) by (destruct ty; cbn; auto 20). specialize (V I E).
  pose proof (all_high _ I) as H. unfold accepted, new_of. rewrite !(new_ok _ _ H).
  unfold new_is_ok in V. rewrite !(new_run _ _ H) in V. cbn [bind] in V.
  destruct (accepts (automaton_of ty) s), (accepts (automaton_of ty) s'); cbn in V; split; congruence.
Qed.

Lemma expected_nil_ci k : Forall2 same_opt (expected_next k []) (expected_next k []).
Proof. induction k; cbn [expected_next]; constructor; cbn; auto. Qed.

Lemma private_subtags_ci s s' t t' k : is_tag s t -> is_tag s' t' -> same_ci s s' ->
  same_outcome (Forall2 same_opt)
    (let! it := NormalLangTag_private_use_subtags s in calls PrivateUseIter_next k it)
    (let! it := NormalLangTag_private_use_subtags s' in calls PrivateUseIter_next k it).
Proof.
  intros T T' E. rewrite (private_use_subtags_exact s t k T), (private_use_subtags_exact s' t' k T').
  destruct T as [T ->], T' as [T' ->]. pose proof (same_ci_components t t' T T' E) as L.
  pose proof (ends_lower t) as (_ & _ & R & _). pose proof (ends_lower t') as (_ & _ & R' & _).
  rewrite L, R' in R. rewrite R. destruct (ends_by_region t); [exact I|]. cbn [same_outcome].
  pose proof (rest_lower t) as Q. rewrite L, rest_lower in Q. clear - Q.
  assert (Q2 : map (map lower) (tl (rest_subtags t)) = map (map lower) (tl (rest_subtags t'))).
  { destruct (rest_subtags t), (rest_subtags t'); cbn [map tl] in Q |- *; congruence. }
  revert Q2. generalize (tl (rest_subtags t)), (tl (rest_subtags t')). clear. intros a. revert k.
  induction a as [|x a IH]; intros [|k] [|y b] Q; try discriminate; cbn [expected_next]; constructor; cbn; auto.
  - apply expected_nil_ci.
  - injection Q. auto.
  - apply IH. injection Q. auto.
Qed.

Lemma langtag_case s s' : accepted LangTagT s -> same_ci s s' ->
  accepted LangTagT s' /\
  LangTag_kind s = LangTag_kind s' /\
  LangTag_is_normal s = LangTag_is_normal s' /\ LangTag_is_private_use s = LangTag_is_private_use s' /\
  LangTag_is_grandfathered s = LangTag_is_grandfathered s' /\
  LangTag_as_grandfathered s = LangTag_as_grandfathered s' /\
  same_outcome same_opt (LangTag_as_normal s) (LangTag_as_normal s') /\
  same_outcome same_opt (LangTag_as_private_use s) (LangTag_as_private_use s') /\
  same_outcome same_typed (LangTag_as_typed s) (LangTag_as_typed s') /\
  same_outcome same_opt (LangTag_language s) (LangTag_language s') /\
  same_outcome same_opt (LangTag_script s) (LangTag_script s') /\
  same_outcome same_opt (LangTag_region s) (LangTag_region s') /\
  same_outcome same_ci (LangTag_variants s) (LangTag_variants s') /\
  same_outcome same_ci (LangTag_extensions s) (LangTag_extensions s') /\
  same_outcome same_opt (LangTag_private_use s) (LangTag_private_use s') /\
  forall k, same_outcome (Forall2 same_opt)
    (let! it := LangTag_private_use_subtags s in calls PrivateUseIter_next k it)
    (let! it := LangTag_private_use_subtags s' in calls PrivateUseIter_next k it).
Proof.
  intros A E. pose proof (proj1 (accepted_ci LangTagT s s' E) A) as A'. split; [exact A'|].
  pose proof (blind_langtag s s' E) as N. pose proof (blind_privateuse s s' E) as P. pose proof (gf_find_ci s s' E) as G.
  split. { unfold LangTag_kind. rewrite !as_typed_eq. unfold typed_of. rewrite <- N, <- P, <- G.
           destruct (accepts Langtag s), (accepts Privateuse s), (gf_find GRANDFATHERED s); reflexivity. }
  split; [rewrite !is_normal_eq, N; reflexivity|]. split; [rewrite !is_private_use_eq, P; reflexivity|].
  split; [rewrite !is_grandfathered_eq, G; reflexivity|]. split; [rewrite !as_grandfathered_eq, G; reflexivity|].
  split; [rewrite !as_normal_eq, <- N; destruct (accepts Langtag s); cbn; auto|].
  split; [rewrite !as_private_use_eq, <- P; destruct (accepts Privateuse s); cbn; auto|].
  split. { assert (L : accepts LanguageTag s = true) by (apply new_ok; [apply all_high; cbn; auto|exact A]).
           destruct (tag_form s L) as (ty & X & _). rewrite X. rewrite as_typed_eq in X |- *. unfold typed_of in X |- *.
           rewrite <- N, <- P, <- G. destruct (accepts Langtag s), (accepts Privateuse s), (gf_find GRANDFATHERED s);
             try discriminate; injection X as <-; cbn; auto. }
  destruct (accepts Langtag s) eqn:K; symmetry in N.
  - pose proof (proj1 (langtag_is_tag s) K) as (t & T). pose proof (proj1 (langtag_is_tag s') N) as (t' & T').
    pose proof (accessors_case s s' t t' T T' E) as (H0 & H1 & H2 & H3 & H4 & H5).
    pose proof (LangTag_normal s t T) as (_ & R1 & R2 & R3 & R4 & R5 & R6).
    pose proof (LangTag_normal s' t' T') as (_ & Q1 & Q2 & Q3 & Q4 & Q5 & Q6).
    split; [eapply normal_language_ci; eauto|].
    rewrite R1, Q1, R2, Q2, R3, Q3, R4, Q4, R5, Q5, R6, Q6. repeat (split; [assumption|]).
    intros k. eapply private_subtags_ci; eauto.
  - assert (M : forall x, accepts Langtag x = false -> ~ matches abnf_langtag x).
    { intros x X Y. apply (decides_ok _ _ x (proj1 (proj2 (proj2 productions_decided)))) in Y.
      rewrite new_langtag, X in Y. discriminate. }
    pose proof (LangTag_not_normal s (M s K)) as (-> & -> & -> & -> & -> & -> & R).
    pose proof (LangTag_not_normal s' (M s' N)) as (-> & -> & -> & -> & -> & -> & Q).
    repeat (split; [cbn; auto; reflexivity|]). intros k. rewrite R, Q. apply expected_nil_ci.
Qed.

(** * 8. Order *)

Lemma lex_mark a : forall b, lex_codes (marked a) (marked b) = ci_cmp a b.
Proof.
  unfold marked. induction a as [|x a IH]; intros [|y b]; cbn [map app lex_codes ci_cmp].
  - reflexivity.
  - assert (code (lower y) < 256)%N by apply code_lt. destruct (N.compare_spec 256 (code (lower y))); auto; lia.
  - assert (code (lower x) < 256)%N by apply code_lt. destruct (N.compare_spec (code (lower x)) 256); auto; lia.
  - unfold byte_cmp. destruct (code (lower x) ?= code (lower y))%N; auto.
Qed.
Lemma cmp_exact ty a b : cmp_of ty a b = Ret (lex_codes (marked a) (marked b)).
Proof. rewrite cmp_of_ci, lex_mark. reflexivity. Qed.

(** The derived order of grandfathered tags, against the order of their texts. *)
Lemma grandfathered_order g h : gf_irregular g = gf_irregular h ->
  (cmp_of LangTagT (Grandfathered_as_bytes g) (Grandfathered_as_bytes h) = Ret (Grandfathered_cmp g h) <->
   ~ (g = ZhMin /\ h = ZhMinNan) /\ ~ (g = ZhMinNan /\ h = ZhMin)).
Proof.
  intros I. rewrite cmp_of_ci. destruct g, h; try discriminate I; vm_compute; split; intros H;
    try (split; intros [? ?]; discriminate); try reflexivity; try discriminate;
    exfalso; destruct H as [H H']; [apply H|apply H']; split; reflexivity.
Qed.
