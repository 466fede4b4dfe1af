(** Proofs about the accessors of [NormalLangTag] and [LangTag] (C09-C17, C35, C36). *)
From Verif Require Import Base GrammarRs Validate Utils Grandfathered Normal LangTag Newtypes Derived Spec
  Observe RegexEquiv Accept AcceptTag Case CaseTag Direct Parse Scan Access Iter Kind Grammar.

(** * 1. Where a tag ends *)

Lemma empty_nil {A} (l : list A) : empty l = true <-> l = [].
Proof. destruct l; cbn; split; congruence. Qed.
Lemma absent_none {A} (o : option A) : absent o = true <-> o = None.
Proof. destruct o; cbn; split; congruence. Qed.

Lemma empty_app {A} (a b : list A) : empty (a ++ b) = empty a && empty b.
Proof. destruct a; reflexivity. Qed.
Lemma empty_opt_list {A} (o : option A) : empty (opt_list o) = absent o.
Proof. destruct o; reflexivity. Qed.

Lemma empty_after_variants t : empty (after_variants t) = ends_by_variants t.
Proof.
  unfold after_variants, after_extensions, ends_by_variants. rewrite empty_app. f_equal.
  - destruct (t_extensions t); reflexivity.
  - destruct (t_private t); reflexivity.
Qed.
Lemma empty_after_region t : empty (after_region t) = ends_by_region t.
Proof. unfold after_region, ends_by_region. rewrite empty_app, empty_after_variants. reflexivity. Qed.
Lemma empty_after_script t : empty (after_script t) = ends_by_script t.
Proof. unfold after_script, ends_by_script. rewrite empty_app, empty_after_region, empty_opt_list. reflexivity. Qed.
Lemma empty_after_language t : empty (after_language t) = ends_by_language t.
Proof. unfold after_language, ends_by_language. rewrite empty_app, empty_after_script, empty_opt_list. reflexivity. Qed.

Lemma match_empty {A B} (l : list A) (x y : B) :
  match l with [] => x | _ => y end = if empty l then x else y.
Proof. destruct l; reflexivity. Qed.

(** * 2. Exact values *)

Lemma language_exact s t : is_tag s t -> NormalLangTag_language s = Ret (language_text (t_language t)).
Proof. intros [H ->]. apply language_spec, H. Qed.
Lemma script_exact s t : is_tag s t ->
  NormalLangTag_script s = if ends_by_language t then Panic else Ret (t_script t).
Proof. intros [H ->]. rewrite (script_spec t H), match_empty, empty_after_language. reflexivity. Qed.
Lemma region_exact s t : is_tag s t ->
  NormalLangTag_region s = if ends_by_script t then Panic else Ret (t_region t).
Proof. intros [H ->]. rewrite (region_spec t H), match_empty, empty_after_script. reflexivity. Qed.
Lemma variants_exact s t : is_tag s t ->
  NormalLangTag_variants s = if ends_by_region t then Panic else Ret (join (t_variants t)).
Proof. intros [H ->]. rewrite (variants_spec t H), match_empty, empty_after_region. reflexivity. Qed.
Lemma extensions_exact s t : is_tag s t ->
  NormalLangTag_extensions s = if ends_by_variants t then Panic else Ret (extensions_text (t_extensions t)).
Proof. intros [H ->]. rewrite (extensions_spec t H), match_empty, empty_after_variants. reflexivity. Qed.
Lemma private_use_exact s t : is_tag s t ->
  NormalLangTag_private_use s =
  if ends_by_region t then Panic
  else Ret (if ends_by_variants t then None else Some (join (rest_subtags t))).
Proof.
  intros [H ->]. rewrite (private_use_spec t H), match_empty, empty_after_region.
  rewrite <- empty_after_variants. unfold rest_subtags. change (opt_parts private_parts (t_private t)) with (after_extensions t).
  fold (after_variants t). destruct (after_variants t); reflexivity.
Qed.

Lemma private_use_no_ext s t : is_tag s t -> t_extensions t = [] -> ends_by_region t = false ->
  NormalLangTag_private_use s = Ret (option_map private_text (t_private t)).
Proof.
  intros H E R. rewrite (private_use_exact s t H), R. unfold ends_by_variants, rest_subtags. rewrite E.
  destruct (t_private t); reflexivity.
Qed.

(** Subtags that [private_use_subtags] yields. *)
Lemma private_use_subtags_exact s t k : is_tag s t ->
  (let! it := NormalLangTag_private_use_subtags s in calls PrivateUseIter_next k it) =
  if ends_by_region t then Panic else Ret (expected_next k (tl (rest_subtags t))).
Proof.
  intros H. unfold NormalLangTag_private_use_subtags. rewrite (private_use_exact s t H).
  destruct (ends_by_region t); [reflexivity|]. cbn [bind].
  destruct (ends_by_variants t) eqn:E.
  - rewrite <- empty_after_variants in E. apply empty_nil in E. change (after_variants t) with (rest_subtags t) in E.
    rewrite E. apply segment_calls, iter_default_at.
  - destruct H as [H _]. pose proof (segs_after_variants t H) as S. change (after_variants t) with (rest_subtags t) in S.
    pose proof (after_variants_head t) as Hh. change (after_variants t) with (rest_subtags t) in Hh.
    rewrite <- empty_after_variants in E. change (after_variants t) with (rest_subtags t) in E.
    destruct (rest_subtags t) as [|x l]; [discriminate E|]. cbn [one_byte_head] in Hh.
    destruct x as [|b [|c x]]; cbn in Hh; try lia. apply segment_calls. cbn [tl]. apply at_segs_after, S.
Qed.

Lemma private_use_subtags_no_ext s t k : is_tag s t -> t_extensions t = [] -> ends_by_region t = false ->
  (let! it := NormalLangTag_private_use_subtags s in calls PrivateUseIter_next k it) =
  Ret (expected_next k (match t_private t with Some p => p_subtags p | None => [] end)).
Proof.
  intros H E R. rewrite (private_use_subtags_exact s t k H), R. unfold rest_subtags. rewrite E.
  destruct (t_private t); reflexivity.
Qed.

(** * 3. [LangTag] *)

Lemma is_tag_accepts s t : is_tag s t -> accepts Langtag s = true.
Proof. intros H. apply langtag_is_tag. eauto. Qed.
Lemma not_tag_accepts s : ~ matches abnf_langtag s -> accepts Langtag s = false.
Proof. rewrite <- accepts_langtag. destruct (accepts Langtag s); tauto. Qed.

(** On a normal tag, the methods of [LangTag] are those of [NormalLangTag]. *)
Lemma LangTag_normal s t : is_tag s t ->
  LangTag_language s = omap Some (NormalLangTag_language s) /\
  LangTag_script s = NormalLangTag_script s /\ LangTag_region s = NormalLangTag_region s /\
  LangTag_variants s = NormalLangTag_variants s /\ LangTag_extensions s = NormalLangTag_extensions s /\
  LangTag_private_use s = NormalLangTag_private_use s /\
  LangTag_private_use_subtags s = NormalLangTag_private_use_subtags s.
Proof.
  intros H. apply is_tag_accepts in H.
  unfold LangTag_language, LangTag_script, LangTag_region, LangTag_variants, LangTag_extensions,
    LangTag_private_use_subtags, NormalLangTag_private_use_subtags, LangTag_private_use.
  rewrite new_langtag, as_normal_eq, H. cbn [bind and_then]. repeat split.
Qed.

(** On the other tags, they give nothing. *)
Lemma LangTag_not_normal s : ~ matches abnf_langtag s ->
  LangTag_language s = Ret None /\ LangTag_script s = Ret None /\ LangTag_region s = Ret None /\
  LangTag_variants s = Ret [] /\ LangTag_extensions s = Ret [] /\ LangTag_private_use s = Ret None /\
  forall k, (let! it := LangTag_private_use_subtags s in calls PrivateUseIter_next k it) = Ret (expected_next k []).
Proof.
  intros H. apply not_tag_accepts in H.
  unfold LangTag_language, LangTag_script, LangTag_region, LangTag_variants, LangTag_extensions,
    LangTag_private_use_subtags, LangTag_private_use.
  rewrite new_langtag, as_normal_eq, H. cbn [bind and_then]. repeat split.
  - rewrite Grandfathered_new_spec. cbn [bind]. unfold gf_result.
    destruct (gf_find GRANDFATHERED s) as [g|] eqn:G; [|reflexivity].
    apply gf_find_spec in G. rewrite (gf_langtag_ci _ _ G) in H. destruct g; try discriminate H; reflexivity.
  - intros k. apply segment_calls, iter_default_at.
Qed.

Lemma Typed_language_agrees s : new LanguageTag s = Ret (Ok s) ->
  (let! t := LangTag_as_typed s in Typed_language t) = LangTag_language s.
Proof.
  intros H. apply new_ok in H; [|apply high_LanguageTag].
  destruct (tag_form s H) as (t & Et & F). rewrite Et. cbn [bind]. unfold LangTag_language. rewrite new_langtag.
  destruct F as [L P|L P G|g L P I S]; rewrite L; cbn [bind Typed_language].
  - reflexivity.
  - rewrite Grandfathered_new_spec. cbn [bind]. unfold gf_result. rewrite G. reflexivity.
  - rewrite Grandfathered_new_spec. cbn [bind]. unfold gf_result. apply gf_find_spec in S. rewrite S. reflexivity.
Qed.

(** * 4. Panics *)

Lemma ends_chain t :
  (ends_by_language t = true -> ends_by_script t = true) /\
  (ends_by_script t = true -> ends_by_region t = true) /\
  (ends_by_region t = true -> ends_by_variants t = true).
Proof.
  unfold ends_by_language, ends_by_script, ends_by_region. repeat split; intros H; apply andb_true_iff in H as [_ H]; exact H.
Qed.

(** * 5. Reassembly *)

Lemma join_nonempty l : l <> [] -> forallb seg_ok l = true -> nonempty (join l) = true.
Proof. intros H S. pose proof (join_length l H S). destruct (join l); [cbn in *; lia|reflexivity]. Qed.

Lemma join_present_app (ls : list (list bytes)) : forallb (forallb seg_ok) ls = true ->
  join_present (map join ls) = join (concat ls).
Proof.
  intros H. unfold join_present.
  induction ls as [|l ls IH]; [reflexivity|]. cbn [forallb] in H. apply andb_true_iff in H as [Hl Hls].
  specialize (IH Hls). cbn [map concat filter].
  destruct l as [|x l].
  - cbn [join nonempty app]. exact IH.
  - rewrite join_nonempty by (auto; discriminate). rewrite join_app by discriminate.
    rewrite join_cons. f_equal.
    destruct (filter nonempty (map join ls)) as [|y f] eqn:F.
    + cbn [join] in IH. destruct (concat ls) as [|z c] eqn:C; [reflexivity|].
      exfalso. assert (Hc : forallb seg_ok (z :: c) = true).
      { rewrite <- C. clear -Hls. induction ls as [|a ls IH]; [reflexivity|]. cbn in *. rewrite forallb_app.
        apply andb_true_iff in Hls as [-> H]. apply IH, H. }
      pose proof (join_length (z :: c) ltac:(discriminate) Hc) as L. rewrite <- IH in L. cbn in L. lia.
    + rewrite dtail_join by discriminate. rewrite IH. destruct (concat ls) as [|z c] eqn:C.
      * exfalso. change (join []) with (@nil byte) in IH.
        assert (Hy : nonempty y = true).
        { assert (In y (filter nonempty (map join ls))) by (rewrite F; left; reflexivity).
          apply filter_In in H. tauto. }
        rewrite join_cons in IH. destruct y; discriminate.
      * rewrite dtail_join by discriminate. reflexivity.
Qed.

Lemma or_empty_join o : or_empty o = join (opt_list o).
Proof. destruct o; reflexivity. Qed.

Lemma tag_segs t : tag_ok t = true ->
  forallb (forallb seg_ok)
    [language_subtags (t_language t); opt_list (t_script t); opt_list (t_region t); t_variants t;
     flat_map extension_parts (t_extensions t); opt_parts private_parts (t_private t)] = true.
Proof.
  intros H. apply tag_ok_parts in H as (H1 & H2 & H3 & H4 & H5 & H6). cbn [forallb].
  rewrite (segs_language _ H1), (segs_opt _ seg_script _ H2), (segs_opt _ seg_region _ H3), (segs_variants _ H4),
    (segs_extensions _ H5).
  destruct (t_private t) as [p|]; [cbn [opt_parts]; rewrite (segs_private _ H6)|]; reflexivity.
Qed.

Lemma reassemble_spec t : tag_ok t = true ->
  join_present [language_text (t_language t); or_empty (t_script t); or_empty (t_region t);
                join (t_variants t); extensions_text (t_extensions t);
                or_empty (option_map private_text (t_private t))] = tag_text t.
Proof.
  intros H. rewrite !or_empty_join.
  replace (join (opt_list (option_map private_text (t_private t)))) with (join (opt_parts private_parts (t_private t)))
    by (destruct (t_private t); reflexivity).
  transitivity (join (concat
    [language_subtags (t_language t); opt_list (t_script t); opt_list (t_region t); t_variants t;
     flat_map extension_parts (t_extensions t); opt_parts private_parts (t_private t)])).
  - rewrite <- join_present_app by (apply tag_segs, H). reflexivity.
  - unfold tag_text, tag_subtags. cbn [concat]. rewrite app_nil_r. reflexivity.
Qed.

Lemma reassemble_rest t : tag_ok t = true ->
  join_present [language_text (t_language t); or_empty (t_script t); or_empty (t_region t);
                join (t_variants t); join (rest_subtags t)] = tag_text t.
Proof.
  intros H. rewrite !or_empty_join.
  transitivity (join (concat
    [language_subtags (t_language t); opt_list (t_script t); opt_list (t_region t); t_variants t; rest_subtags t])).
  - rewrite <- join_present_app; [reflexivity|].
    pose proof (tag_segs t H) as S. cbn [forallb] in S |- *. unfold rest_subtags. rewrite forallb_app.
    rewrite !andb_true_r in *. rewrite !andb_true_iff in *. tauto.
  - unfold tag_text, tag_subtags, rest_subtags. cbn [concat]. rewrite app_nil_r. reflexivity.
Qed.
