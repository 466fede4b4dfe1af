(** Exact results of the accessors of [NormalLangTag], panics included, on every normal tag. *)
From Verif Require Import Base GrammarRs Validate Utils Grandfathered Normal LangTag Newtypes Derived Spec
  Observe RegexEquiv Accept Case Direct Parse Scan.

(** Text of the tag up to and including each component. *)
Definition upto_language (t : tag) : bytes := language_text (t_language t).
Definition upto_script (t : tag) : bytes := upto_language t ++ dtail (opt_list (t_script t)).
Definition upto_region (t : tag) : bytes := upto_script t ++ dtail (opt_list (t_region t)).
Definition upto_variants (t : tag) : bytes := upto_region t ++ dtail (t_variants t).
Definition upto_extensions (t : tag) : bytes := upto_variants t ++ dtail (flat_map extension_parts (t_extensions t)).

Lemma cut_language t : tag_text t = upto_language t ++ dtail (after_language t).
Proof. unfold tag_text. rewrite tag_subtags_language, join_app by discriminate. reflexivity. Qed.
Lemma cut_script t : tag_text t = upto_script t ++ dtail (after_script t).
Proof. rewrite cut_language. unfold upto_script, after_language. rewrite dtail_app, app_assoc. reflexivity. Qed.
Lemma cut_region t : tag_text t = upto_region t ++ dtail (after_region t).
Proof. rewrite cut_script. unfold upto_region, after_script. rewrite dtail_app, app_assoc. reflexivity. Qed.
Lemma cut_variants t : tag_text t = upto_variants t ++ dtail (after_variants t).
Proof. rewrite cut_region. unfold upto_variants, after_region. rewrite dtail_app, app_assoc. reflexivity. Qed.
Lemma cut_extensions t : tag_text t = upto_extensions t ++ dtail (after_extensions t).
Proof. rewrite cut_variants. unfold upto_extensions, after_variants. rewrite dtail_app, app_assoc. reflexivity. Qed.

Lemma tag_ascii t : tag_ok t = true -> ascii (tag_text t) = true.
Proof. intros H. apply join_ascii, segs_tag, H. Qed.

Lemma segs_after_language t : tag_ok t = true -> forallb seg_ok (after_language t) = true.
Proof.
  intros H. apply segs_tag in H. rewrite tag_subtags_language, forallb_app in H.
  apply andb_true_iff in H. tauto.
Qed.
Lemma segs_after_script t : tag_ok t = true -> forallb seg_ok (after_script t) = true.
Proof.
  intros H. apply segs_after_language in H. unfold after_language in H. rewrite forallb_app in H.
  apply andb_true_iff in H. tauto.
Qed.
Lemma segs_after_region t : tag_ok t = true -> forallb seg_ok (after_region t) = true.
Proof.
  intros H. apply segs_after_script in H. unfold after_script in H. rewrite forallb_app in H.
  apply andb_true_iff in H. tauto.
Qed.
Lemma segs_after_variants t : tag_ok t = true -> forallb seg_ok (after_variants t) = true.
Proof.
  intros H. apply segs_after_region in H. unfold after_region in H. rewrite forallb_app in H.
  apply andb_true_iff in H. tauto.
Qed.

(** A non-empty list of subtags has a non-empty text. *)
Lemma seg_length x : seg_ok x = true -> 1 <= length x.
Proof. unfold seg_ok. rewrite sized_spec. lia. Qed.
Lemma join_length l : l <> [] -> forallb seg_ok l = true -> 1 <= length (join l).
Proof.
  destruct l as [|x l]; [congruence|]. cbn [forallb]. rewrite andb_true_iff. intros _ [H _].
  rewrite join_cons, app_length. apply seg_length in H. lia.
Qed.

(** * language *)

Lemma all_at_extlangs l : forallb extlang_tag_ok l = true -> forall n,
  all_at (fun i x => if i =? 0 then true else extlang_tag_ok x) (n + 1) l.
Proof.
  induction l as [|x l IH]; cbn; auto. rewrite andb_true_iff. intros [H1 H2] n. split.
  - destruct (Nat.eqb_spec (n + 1) 0); [reflexivity|auto].
  - apply (IH H2 (n + 1 + length x)).
Qed.

Lemma language_end_spec t : tag_ok t = true -> language_end (tag_text t) = Ret (length (upto_language t)).
Proof.
  intros H. unfold language_end. unfold tag_text.
  pose proof (find_list_end_spec [] (tag_subtags t)
    (fun i segment => if i =? 0 then Ret true else new_is_ok ExtlangTag segment)
    (fun i x => if i =? 0 then true else extlang_tag_ok x)) as Hf.
  cbn [app length] in Hf. rewrite Hf.
  - f_equal. rewrite tag_subtags_language. rewrite fle_app.
    + reflexivity.
    + unfold language_subtags. apply tag_ok_parts in H as (H & _). unfold language_ok in H.
      split; [reflexivity|]. cbn [app].
      assert (Hx : forallb extlang_tag_ok (l_extlangs (t_language t)) = true).
      { apply orb_true_iff in H. rewrite !andb_true_iff in H. destruct H as [[_ H]|[_ H]]; auto.
        destruct (l_extlangs (t_language t)); [reflexivity|discriminate]. }
      apply all_at_extlangs; auto.
    + rewrite end_at_dtail. pose proof (stop_extlang t H) as Hs. destruct (after_language t) as [|x l]; cbn; auto.
  - apply tag_ascii; auto.
  - apply tag_subtags_nil.
  - apply segs_dash_free, segs_tag; auto.
  - intros off x _. destruct (off =? 0); [reflexivity|apply is_ok_extlang_tag].
Qed.

Theorem language_spec t : tag_ok t = true -> NormalLangTag_language (tag_text t) = Ret (language_text (t_language t)).
Proof.
  intros H. unfold NormalLangTag_language. rewrite language_end_spec by auto. cbn [bind].
  pose proof (tag_ascii t H) as Ha. rewrite cut_language in *. apply slice_to_app; auto.
Qed.

(** * script and region *)

(** Scan for one optional subtag. *)
Lemma stage_one p o l A ok :
  (forall s, new_is_ok A s = Ret (ok s)) ->
  ascii (p ++ dtail (opt_list o ++ l)) = true -> forallb seg_ok (opt_list o ++ l) = true ->
  opt_ok ok o = true -> stops ok l ->
  find_list_end (p ++ dtail (opt_list o ++ l)) (length p + 1)
    (fun i segment => if i =? length p + 1 then new_is_ok A segment else Ret false) =
  match opt_list o ++ l with
  | [] => Panic
  | _ => Ret (match o with None => length p + 1 | Some x => length p + 1 + length x end)
  end.
Proof.
  intros HA Hs Hsegs Ho Hl.
  rewrite (stage _ _ _ _ (fun i x => if i =? length p + 1 then ok x else false)); auto.
  - destruct (opt_list o ++ l); [reflexivity|]. destruct o as [x|]; [|reflexivity]. cbn.
    f_equal. rewrite app_nil_r, app_length. cbn. lia.
  - apply segs_dash_free; auto.
  - intros off x _. destruct (off =? length p + 1); auto.
  - destruct o as [x|]; cbn; auto. rewrite Nat.eqb_refl. auto.
  - destruct l as [|x l]; cbn; auto. cbn in Hl. rewrite Hl.
    destruct (Nat.eqb (length (p ++ dtail (opt_list o)) + 1) (length p + 1)); reflexivity.
Qed.

Definition range_of (p : bytes) (o : option bytes) : range_result :=
  match o with
  | Some x => Ok (length p + 1, length p + 1 + length x)
  | None => Err (length p)
  end.

Lemma end_of_range p o : end_of (range_of p o) = length (p ++ dtail (opt_list o)).
Proof. destruct o as [x|]; cbn; rewrite app_length; cbn; rewrite ?app_nil_r; lia. Qed.

Lemma range_of_negb p o : opt_ok seg_ok o = true ->
  (let e := match o with None => length p + 1 | Some x => length p + 1 + length x end in
   if negb (e =? length p + 1) then Ok (length p + 1, e) else Err (length p)) = range_of p o.
Proof.
  destruct o as [x|]; cbn; intros H.
  - apply seg_length in H. destruct (Nat.eqb_spec (length p + 1 + length x) (length p + 1)); [lia|reflexivity].
  - rewrite Nat.eqb_refl. reflexivity.
Qed.

Lemma slice_range p o l : ascii (p ++ dtail (opt_list o ++ l)) = true ->
  match range_of p o with
  | Ok (a, b) => omap Some (slice (p ++ dtail (opt_list o ++ l)) a b)
  | Err _ => Ret None
  end = Ret o.
Proof.
  destruct o as [x|]; cbn [range_of opt_list app]; [|reflexivity]. intros H.
  change (dtail (x :: l)) with (dash :: (x ++ dtail l)) in *.
  replace (p ++ dash :: x ++ dtail l) with ((p ++ [dash]) ++ x ++ dtail l) in * by (rewrite <- app_assoc; reflexivity).
  replace (length p + 1) with (length (p ++ [dash])) by (rewrite app_length; reflexivity).
  rewrite slice_mid; auto.
Qed.

Lemma script_range_spec t : tag_ok t = true -> script_range (tag_text t) =
  match after_language t with
  | [] => Panic
  | _ => Ret (range_of (upto_language t) (t_script t))
  end.
Proof.
  intros H. unfold script_range. rewrite language_end_spec by auto. cbn [bind]. rewrite cut_language.
  pose proof (tag_ascii t H) as Ha. rewrite cut_language in Ha. pose proof (segs_after_language t H) as Hs.
  pose proof (stop_script t H) as Hst. apply tag_ok_parts in H as (_ & Hc & _).
  unfold after_language in *.
  rewrite (stage_one _ _ _ Script script_ok) by (auto using is_ok_script).
  destruct (opt_list (t_script t) ++ after_script t); [reflexivity|]. cbn [bind]. f_equal.
  apply range_of_negb. destruct (t_script t); cbn in *; auto using seg_script.
Qed.

Theorem script_spec t : tag_ok t = true -> NormalLangTag_script (tag_text t) =
  match after_language t with [] => Panic | _ => Ret (t_script t) end.
Proof.
  intros H. unfold NormalLangTag_script. rewrite script_range_spec by auto.
  destruct (after_language t) as [|x l] eqn:E; [reflexivity|]. cbn [bind].
  pose proof (tag_ascii t H) as Ha. rewrite cut_language in *. unfold after_language in *. apply slice_range; auto.
Qed.

Lemma region_range_spec t : tag_ok t = true -> region_range (tag_text t) =
  match after_script t with
  | [] => Panic
  | _ => Ret (range_of (upto_script t) (t_region t))
  end.
Proof.
  intros H. unfold region_range. rewrite script_range_spec by auto.
  destruct (after_language t) as [|x l] eqn:E.
  { unfold after_language in E. apply app_eq_nil in E as [_ ->]. reflexivity. }
  cbn [bind]. rewrite end_of_range. fold (upto_script t). rewrite cut_script.
  pose proof (tag_ascii t H) as Ha. rewrite cut_script in Ha. pose proof (segs_after_script t H) as Hs.
  pose proof (stop_region t H) as Hst. apply tag_ok_parts in H as (_ & _ & Hr & _).
  clear E. unfold after_script in *.
  rewrite (stage_one _ _ _ Region region_ok) by (auto using is_ok_region).
  destruct (opt_list (t_region t) ++ after_region t); [reflexivity|]. cbn [bind]. f_equal.
  apply range_of_negb. destruct (t_region t); cbn in *; auto using seg_region.
Qed.

Theorem region_spec t : tag_ok t = true -> NormalLangTag_region (tag_text t) =
  match after_script t with [] => Panic | _ => Ret (t_region t) end.
Proof.
  intros H. unfold NormalLangTag_region. rewrite region_range_spec by auto.
  destruct (after_script t) as [|x l] eqn:E; [reflexivity|]. cbn [bind].
  pose proof (tag_ascii t H) as Ha. rewrite cut_script in *. unfold after_script in *. apply slice_range; auto.
Qed.

(** * variants and extensions *)

Definition list_range (p : bytes) (a : list bytes) : nat * nat :=
  match a with
  | [] => (length p, length p)
  | _ => (length p + 1, length (p ++ dtail a))
  end.

Lemma snd_list_range p a : snd (list_range p a) = length (p ++ dtail a).
Proof. destruct a; cbn; rewrite ?app_nil_r; auto. Qed.

Lemma list_range_if p a : forallb seg_ok a = true ->
  (let e := match a with [] => length p + 1 | _ => length (p ++ dtail a) end in
   if e =? length p + 1 then (length p, length p) else (length p + 1, e)) = list_range p a.
Proof.
  destruct a as [|x a]; cbn [list_range].
  - rewrite Nat.eqb_refl. reflexivity.
  - cbn [forallb]. rewrite andb_true_iff. intros [H _]. apply seg_length in H. cbv zeta.
    destruct (Nat.eqb_spec (length (p ++ dtail (x :: a))) (length p + 1)) as [E|]; [|reflexivity].
    rewrite app_length in E. change (dtail (x :: a)) with (dash :: (x ++ dtail a)) in E.
    cbn in E. rewrite app_length in E. lia.
Qed.

Lemma slice_list_range p a b : ascii (p ++ dtail (a ++ b)) = true ->
  slice (p ++ dtail (a ++ b)) (fst (list_range p a)) (snd (list_range p a)) = Ret (join a).
Proof.
  intros H. destruct a as [|x a]; cbn [list_range fst snd app].
  - rewrite slice_ascii; [|auto|lia|rewrite app_length; lia]. rewrite Nat.sub_diag. reflexivity.
  - rewrite app_comm_cons in *. rewrite dtail_app, (dtail_join (x :: a)) in * by discriminate.
    replace (p ++ (dash :: join (x :: a)) ++ dtail b) with ((p ++ [dash]) ++ join (x :: a) ++ dtail b) in *
      by (rewrite <- app_assoc; reflexivity).
    replace (length p + 1) with (length (p ++ [dash])) by (rewrite app_length; reflexivity).
    replace (length (p ++ dash :: join (x :: a))) with (length (p ++ [dash]) + length (join (x :: a)))
      by (rewrite !app_length; cbn [length]; lia).
    apply slice_mid; auto.
Qed.

Lemma variants_range_spec t : tag_ok t = true -> variants_range (tag_text t) =
  match after_region t with
  | [] => Panic
  | _ => Ret (list_range (upto_region t) (t_variants t))
  end.
Proof.
  intros H. unfold variants_range. rewrite region_range_spec by auto.
  destruct (after_script t) as [|x l] eqn:E.
  { unfold after_script in E. apply app_eq_nil in E as [_ ->]. reflexivity. }
  cbn [bind]. rewrite end_of_range. fold (upto_region t). rewrite cut_region. clear E x l.
  pose proof (tag_ascii t H) as Ha. rewrite cut_region in Ha. pose proof (segs_after_region t H) as Hs.
  pose proof (stop_variants t) as Hst. apply tag_ok_parts in H as (_ & _ & _ & Hv & _).
  unfold after_region in *.
  rewrite (stage _ _ _ _ (fun _ x => variant_ok x)).
  - destruct (t_variants t ++ after_variants t); [reflexivity|]. cbn [bind]. f_equal.
    apply list_range_if. apply segs_variants; auto.
  - auto.
  - apply segs_dash_free; auto.
  - intros off x _. apply is_ok_variant.
  - apply all_at_forallb; auto.
  - apply (stops_at_stops variant_ok); auto.
Qed.

Theorem variants_spec t : tag_ok t = true -> NormalLangTag_variants (tag_text t) =
  match after_region t with [] => Panic | _ => Ret (join (t_variants t)) end.
Proof.
  intros H. unfold NormalLangTag_variants. rewrite variants_range_spec by auto.
  destruct (after_region t) as [|x l] eqn:E; [reflexivity|]. cbn [bind].
  pose proof (tag_ascii t H) as Ha. rewrite cut_region in *. unfold after_region in *. apply slice_list_range; auto.
Qed.

Definition ext_part (x : bytes) : bool := is_singleton x || ext_subtag_ok x.

Lemma ext_part_spec x : seg_ok x = true ->
  (let! a := Singleton_from_string x in
   if is_ok a then Ret true else new_is_ok ExtensionSubtag x) = Ret (ext_part x).
Proof.
  intros H. apply seg_ascii in H. pose proof (Singleton_from_string_is_ok x H) as E.
  rewrite is_ok_extension_subtag.
  unfold ext_part. destruct (Singleton_from_string x) as [a| |]; cbn in *; try discriminate.
  injection E as ->. destruct (is_singleton x); reflexivity.
Qed.

Lemma extensions_ext_part l : extensions_ok l = true -> forallb ext_part (flat_map extension_parts l) = true.
Proof.
  unfold extensions_ok. induction l as [|[b l0] l IH]; [auto|]. cbn [forallb flat_map].
  rewrite andb_true_iff. intros [H1 H2]. rewrite forallb_app, IH by auto.
  unfold extension_ok in H1. cbn [e_singleton e_subtags] in H1. rewrite !andb_true_iff in H1.
  destruct H1 as [[H1 _] H3]. unfold extension_parts. cbn [e_singleton e_subtags forallb].
  unfold ext_part at 1. cbn [is_singleton]. rewrite H1. rewrite andb_true_r. cbn [orb andb].
  rewrite forallb_forall in *. intros x Hx. unfold ext_part. rewrite (H3 x Hx). apply orb_true_r.
Qed.

Lemma x_not_ext_part b : beq b "x"%byte || beq b "X"%byte = true -> ext_part [b] = false.
Proof. rewrite orb_true_iff, !beq_true. intros [->| ->]; reflexivity. Qed.

Lemma stop_ext_part t : tag_ok t = true -> stops ext_part (after_extensions t).
Proof.
  intros H. apply tag_ok_parts in H as (_ & _ & _ & _ & _ & Hp). unfold after_extensions.
  destruct (t_private t) as [[b l]|]; cbn in *; auto. unfold private_ok in Hp. cbn [p_x p_subtags] in Hp.
  rewrite !andb_true_iff in Hp. destruct Hp as [[Hp _] _]. apply (x_not_ext_part b); auto.
Qed.

Lemma extensions_range_spec t : tag_ok t = true -> extensions_range (tag_text t) =
  match after_variants t with
  | [] => Panic
  | _ => Ret (list_range (upto_variants t) (flat_map extension_parts (t_extensions t)))
  end.
Proof.
  intros H. unfold extensions_range. rewrite variants_range_spec by auto.
  destruct (after_region t) as [|x l] eqn:E.
  { unfold after_region in E. apply app_eq_nil in E as [_ ->]. reflexivity. }
  cbn [bind]. rewrite snd_list_range. fold (upto_variants t). rewrite cut_variants. clear E x l.
  pose proof (tag_ascii t H) as Ha. rewrite cut_variants in Ha. pose proof (segs_after_variants t H) as Hs.
  pose proof (stop_ext_part t H) as Hst. apply tag_ok_parts in H as (_ & _ & _ & _ & He & _).
  unfold after_variants in *.
  rewrite (stage _ _ _ _ (fun _ x => ext_part x)).
  - destruct (flat_map extension_parts (t_extensions t) ++ after_extensions t); [reflexivity|]. cbn [bind]. f_equal.
    apply list_range_if. apply segs_extensions; auto.
  - auto.
  - apply segs_dash_free; auto.
  - intros off x Hx. apply ext_part_spec. rewrite forallb_forall in Hs. auto.
  - apply all_at_forallb, extensions_ext_part; auto.
  - apply (stops_at_stops ext_part); auto.
Qed.

Theorem extensions_spec t : tag_ok t = true -> NormalLangTag_extensions (tag_text t) =
  match after_variants t with [] => Panic | _ => Ret (extensions_text (t_extensions t)) end.
Proof.
  intros H. unfold NormalLangTag_extensions. rewrite extensions_range_spec by auto.
  destruct (after_variants t) as [|x l] eqn:E; [reflexivity|]. cbn [bind].
  pose proof (tag_ascii t H) as Ha. rewrite cut_variants in *. unfold after_variants in *. apply slice_list_range; auto.
Qed.

(** * private use *)

Lemma private_use_offset_spec t : tag_ok t = true -> private_use_offset (tag_text t) =
  match after_region t with
  | [] => Panic
  | _ => Ret (match after_variants t with [] => None | _ => Some (length (upto_variants t) + 1) end)
  end.
Proof.
  intros H. unfold private_use_offset. rewrite variants_range_spec by auto.
  destruct (after_region t) as [|x l] eqn:E; [reflexivity|]. cbn [bind]. rewrite snd_list_range.
  fold (upto_variants t). f_equal. rewrite cut_variants, app_length.
  destruct (after_variants t) as [|y l'].
  - cbn [dtail flat_map length]. rewrite Nat.add_0_r, Nat.ltb_irrefl. reflexivity.
  - destruct (Nat.ltb_spec (length (upto_variants t)) (length (upto_variants t) + length (dtail (y :: l')))); [reflexivity|].
    cbn in *. lia.
Qed.

Theorem private_use_spec t : tag_ok t = true -> NormalLangTag_private_use (tag_text t) =
  match after_region t with
  | [] => Panic
  | _ => Ret (match after_variants t with [] => None | l => Some (join l) end)
  end.
Proof.
  intros H. unfold NormalLangTag_private_use. rewrite private_use_offset_spec by auto.
  destruct (after_region t) as [|x l] eqn:E; [reflexivity|]. cbn [bind].
  pose proof (tag_ascii t H) as Ha. rewrite cut_variants in *. destruct (after_variants t) as [|y l']; [reflexivity|].
  rewrite dtail_join in * by discriminate.
  replace (upto_variants t ++ dash :: join (y :: l')) with ((upto_variants t ++ [dash]) ++ join (y :: l')) in *
    by (rewrite <- app_assoc; reflexivity).
  replace (length (upto_variants t) + 1) with (length (upto_variants t ++ [dash])) by (rewrite app_length; reflexivity).
  rewrite slice_from_app; auto.
Qed.
