(** Not a model of code in /repo: a repaired version of the accessors of [NormalLangTag].

    Two lines of normal/mod.rs are changed:
    - [find_list_end] (181-201) starts by [if offset > string.len() { return offset }];
    - [private_use_offset] (129-137) starts from [extensions_range()] instead of [variants_range()].
    The accessors below take these two as parameters; with the originals they are those of Normal.v. *)
From Verif Require Import Base GrammarRs Validate Utils Grandfathered Normal LangTag Newtypes Derived Spec
  Observe RegexEquiv Accept Case Direct Parse Scan Access Iter Kind Grammar Parts.

Definition scanner := bytes -> nat -> (nat -> bytes -> outcome bool) -> outcome nat.

(** The first changed line. *)
Definition find_list_end_guarded : scanner := fun s offset f =>
  if length s <? offset then Ret offset else find_list_end s offset f.

(** * 1. The accessors over a scanner *)

(** normal/mod.rs:34-38. *)
Definition language_end_with (scan : scanner) (s : bytes) : outcome nat :=
  scan s 0 (fun i segment => if i =? 0 then Ret true else new_is_ok ExtlangTag segment).
(** normal/mod.rs:41-43. *)
Definition language_with scan (s : bytes) : outcome bytes :=
  let! e := language_end_with scan s in slice_to s e.
(** normal/mod.rs:45-56. *)
Definition script_range_with (scan : scanner) (s : bytes) : outcome range_result :=
  let! language_end := language_end_with scan s in
  let offset := language_end + 1 in
  let! e := scan s offset (fun i segment =>
    if i =? offset then new_is_ok Script segment else Ret false) in
  Ret (if negb (e =? offset) then Ok (offset, e) else Err language_end).
(** normal/mod.rs:59-63. *)
Definition script_with scan (s : bytes) : outcome (option bytes) :=
  let! r := script_range_with scan s in
  match r with
  | Ok (a, b) => omap Some (slice s a b)
  | Err _ => Ret None
  end.
(** normal/mod.rs:65-80. *)
Definition region_range_with (scan : scanner) (s : bytes) : outcome range_result :=
  let! r := script_range_with scan s in
  let script_end := end_of r in
  let offset := script_end + 1 in
  let! e := scan s offset (fun i segment =>
    if i =? offset then new_is_ok Region segment else Ret false) in
  Ret (if negb (e =? offset) then Ok (offset, e) else Err script_end).
(** normal/mod.rs:83-87. *)
Definition region_with scan (s : bytes) : outcome (option bytes) :=
  let! r := region_range_with scan s in
  match r with
  | Ok (a, b) => omap Some (slice s a b)
  | Err _ => Ret None
  end.
(** normal/mod.rs:89-102. *)
Definition variants_range_with (scan : scanner) (s : bytes) : outcome (nat * nat) :=
  let! r := region_range_with scan s in
  let region_end := end_of r in
  let offset := region_end + 1 in
  let! e := scan s offset (fun _ segment => new_is_ok Variant segment) in
  Ret (if e =? offset then (region_end, region_end) else (offset, e)).
(** normal/mod.rs:105-107. *)
Definition variants_with scan (s : bytes) : outcome bytes :=
  let! r := variants_range_with scan s in slice s (fst r) (snd r).
(** normal/mod.rs:109-122. *)
Definition extensions_range_with (scan : scanner) (s : bytes) : outcome (nat * nat) :=
  let! r := variants_range_with scan s in
  let variants_end := snd r in
  let offset := variants_end + 1 in
  let! e := scan s offset (fun _ segment =>
    let! a := Singleton_from_string segment in
    if is_ok a then Ret true else new_is_ok ExtensionSubtag segment) in
  Ret (if e =? offset then (variants_end, variants_end) else (offset, e)).
(** normal/mod.rs:125-127. *)
Definition extensions_with scan (s : bytes) : outcome bytes :=
  let! r := extensions_range_with scan s in slice s (fst r) (snd r).
(** normal/mod.rs:129-143; [last] gives the range of the component before the private use subtags. *)
Definition private_use_with (last : bytes -> outcome (nat * nat)) (s : bytes) : outcome (option bytes) :=
  let! r := last s in
  let e := snd r in
  if e <? length s then omap Some (slice_from s (e + 1)) else Ret None.

(** The repaired accessors. *)
Definition repaired_language := language_with find_list_end_guarded.
Definition repaired_script := script_with find_list_end_guarded.
Definition repaired_region := region_with find_list_end_guarded.
Definition repaired_variants := variants_with find_list_end_guarded.
Definition repaired_extensions := extensions_with find_list_end_guarded.
Definition repaired_private_use := private_use_with (extensions_range_with find_list_end_guarded).

(** With the original scanner and range, these are the accessors of the code. *)
Lemma with_original s :
  language_with find_list_end s = NormalLangTag_language s /\
  script_with find_list_end s = NormalLangTag_script s /\
  region_with find_list_end s = NormalLangTag_region s /\
  variants_with find_list_end s = NormalLangTag_variants s /\
  extensions_with find_list_end s = NormalLangTag_extensions s /\
  private_use_with (variants_range_with find_list_end) s = NormalLangTag_private_use s.
Proof.
  repeat split. unfold private_use_with, NormalLangTag_private_use, private_use_offset.
  change (variants_range_with find_list_end s) with (variants_range s).
  destruct (variants_range s) as [r| |]; cbn [bind]; auto. destruct (snd r <? length s); reflexivity.
Qed.

(** * 2. The repaired accessors on normal tags *)

Lemma guarded_below s off f : off <= length s -> find_list_end_guarded s off f = find_list_end s off f.
Proof. intros H. unfold find_list_end_guarded. destruct (Nat.ltb_spec (length s) off); [lia|reflexivity]. Qed.

Lemma guarded_stage p l f x :
  find_list_end (p ++ dtail l) (length p + 1) f = match l with [] => Panic | _ => x end ->
  find_list_end_guarded (p ++ dtail l) (length p + 1) f = match l with [] => Ret (length p + 1) | _ => x end.
Proof.
  intros E. unfold find_list_end_guarded. rewrite E. rewrite app_length. destruct l as [|y l].
  - cbn [dtail flat_map length]. destruct (Nat.ltb_spec (length p + 0) (length p + 1)); [reflexivity|lia].
  - change (dtail (y :: l)) with (dash :: (y ++ dtail l)). cbn [length].
    destruct (Nat.ltb_spec (length p + S (length (y ++ dtail l))) (length p + 1)); [lia|reflexivity].
Qed.

Lemma language_end_guarded t : tag_ok t = true ->
  language_end_with find_list_end_guarded (tag_text t) = Ret (length (upto_language t)).
Proof.
  intros H. unfold language_end_with. rewrite guarded_below by lia. exact (language_end_spec t H).
Qed.

Lemma repaired_language_spec t : tag_ok t = true ->
  repaired_language (tag_text t) = Ret (language_text (t_language t)).
Proof.
  intros H. unfold repaired_language, language_with. rewrite language_end_guarded by auto. cbn [bind].
  pose proof (tag_ascii t H) as Ha. rewrite cut_language in *. apply slice_to_app; auto.
Qed.

Lemma script_range_guarded t : tag_ok t = true ->
  script_range_with find_list_end_guarded (tag_text t) = Ret (range_of (upto_language t) (t_script t)).
Proof.
  intros H. unfold script_range_with. rewrite language_end_guarded by auto. cbn [bind]. rewrite cut_language.
  pose proof (tag_ascii t H) as Ha. rewrite cut_language in Ha. pose proof (segs_after_language t H) as Hs.
  pose proof (stop_script t H) as Hst. apply tag_ok_parts in H as (_ & Hc & _).
  unfold after_language in *.
  erewrite guarded_stage by (apply (stage_one _ _ _ Script script_ok); auto using is_ok_script).
  assert (R : opt_ok seg_ok (t_script t) = true) by (destruct (t_script t); cbn in *; auto using seg_script).
  rewrite <- (range_of_negb _ _ R).
  destruct (opt_list (t_script t) ++ after_script t) eqn:E; [|reflexivity].
  apply app_eq_nil in E as [E _]. destruct (t_script t); [discriminate|reflexivity].
Qed.

Lemma repaired_script_spec t : tag_ok t = true -> repaired_script (tag_text t) = Ret (t_script t).
Proof.
  intros H. unfold repaired_script, script_with. rewrite script_range_guarded by auto. cbn [bind].
  pose proof (tag_ascii t H) as Ha. rewrite cut_language in *. unfold after_language in *. apply slice_range; auto.
Qed.

Lemma region_range_guarded t : tag_ok t = true ->
  region_range_with find_list_end_guarded (tag_text t) = Ret (range_of (upto_script t) (t_region t)).
Proof.
  intros H. unfold region_range_with. rewrite script_range_guarded by auto.
  cbn [bind]. rewrite end_of_range. fold (upto_script t). rewrite cut_script.
  pose proof (tag_ascii t H) as Ha. rewrite cut_script in Ha. pose proof (segs_after_script t H) as Hs.
  pose proof (stop_region t H) as Hst. apply tag_ok_parts in H as (_ & _ & Hr & _).
  unfold after_script in *.
  erewrite guarded_stage by (apply (stage_one _ _ _ Region region_ok); auto using is_ok_region).
  assert (R : opt_ok seg_ok (t_region t) = true) by (destruct (t_region t); cbn in *; auto using seg_region).
  rewrite <- (range_of_negb _ _ R).
  destruct (opt_list (t_region t) ++ after_region t) eqn:E; [|reflexivity].
  apply app_eq_nil in E as [E _]. destruct (t_region t); [discriminate|reflexivity].
Qed.

Lemma repaired_region_spec t : tag_ok t = true -> repaired_region (tag_text t) = Ret (t_region t).
Proof.
  intros H. unfold repaired_region, region_with. rewrite region_range_guarded by auto. cbn [bind].
  pose proof (tag_ascii t H) as Ha. rewrite cut_script in *. unfold after_script in *. apply slice_range; auto.
Qed.

Lemma variants_range_guarded t : tag_ok t = true ->
  variants_range_with find_list_end_guarded (tag_text t) = Ret (list_range (upto_region t) (t_variants t)).
Proof.
  intros H. unfold variants_range_with. rewrite region_range_guarded by auto.
  cbn [bind]. rewrite end_of_range. fold (upto_region t). rewrite cut_region.
  pose proof (tag_ascii t H) as Ha. rewrite cut_region in Ha. pose proof (segs_after_region t H) as Hs.
  pose proof (stop_variants t) as Hst. apply tag_ok_parts in H as (_ & _ & _ & Hv & _).
  unfold after_region in *.
  erewrite guarded_stage.
  2:{ apply (stage _ _ _ _ (fun _ x => variant_ok x)).
      - auto.
      - apply segs_dash_free; auto.
      - intros off x _. apply is_ok_variant.
      - apply all_at_forallb; auto.
      - apply (stops_at_stops variant_ok); auto. }
  rewrite <- list_range_if by (apply segs_variants; auto).
  destruct (t_variants t ++ after_variants t) eqn:E; [|reflexivity].
  apply app_eq_nil in E as [-> _]. reflexivity.
Qed.

Lemma repaired_variants_spec t : tag_ok t = true -> repaired_variants (tag_text t) = Ret (join (t_variants t)).
Proof.
  intros H. unfold repaired_variants, variants_with. rewrite variants_range_guarded by auto. cbn [bind].
  pose proof (tag_ascii t H) as Ha. rewrite cut_region in *. unfold after_region in *. apply slice_list_range; auto.
Qed.

Lemma extensions_range_guarded t : tag_ok t = true ->
  extensions_range_with find_list_end_guarded (tag_text t) =
  Ret (list_range (upto_variants t) (flat_map extension_parts (t_extensions t))).
Proof.
  intros H. unfold extensions_range_with. rewrite variants_range_guarded by auto.
  cbn [bind]. rewrite snd_list_range. fold (upto_variants t). rewrite cut_variants.
  pose proof (tag_ascii t H) as Ha. rewrite cut_variants in Ha. pose proof (segs_after_variants t H) as Hs.
  pose proof (stop_ext_part t H) as Hst. apply tag_ok_parts in H as (_ & _ & _ & _ & He & _).
  unfold after_variants in *.
  erewrite guarded_stage.
  2:{ apply (stage _ _ _ _ (fun _ x => ext_part x)).
      - auto.
      - apply segs_dash_free; auto.
      - intros off x Hx. apply ext_part_spec. rewrite forallb_forall in Hs. auto.
      - apply all_at_forallb, extensions_ext_part; auto.
      - apply (stops_at_stops ext_part); auto. }
  rewrite <- list_range_if by (apply segs_extensions; auto).
  destruct (flat_map extension_parts (t_extensions t) ++ after_extensions t) eqn:E; [|reflexivity].
  apply app_eq_nil in E as [-> _]. reflexivity.
Qed.

Lemma repaired_extensions_spec t : tag_ok t = true ->
  repaired_extensions (tag_text t) = Ret (extensions_text (t_extensions t)).
Proof.
  intros H. unfold repaired_extensions, extensions_with. rewrite extensions_range_guarded by auto. cbn [bind].
  pose proof (tag_ascii t H) as Ha. rewrite cut_variants in *. unfold after_variants in *. apply slice_list_range; auto.
Qed.

Lemma repaired_private_use_spec t : tag_ok t = true ->
  repaired_private_use (tag_text t) = Ret (option_map private_text (t_private t)).
Proof.
  intros H. unfold repaired_private_use, private_use_with. rewrite extensions_range_guarded by auto. cbn [bind].
  rewrite snd_list_range. fold (upto_extensions t).
  pose proof (tag_ascii t H) as Ha. rewrite cut_extensions in *. rewrite app_length. unfold after_extensions in *.
  destruct (t_private t) as [p|]; cbn [opt_parts option_map] in *.
  - assert (D : dtail (private_parts p) = dash :: private_text p) by (unfold private_text; apply dtail_join; discriminate).
    rewrite D in *. cbn [length].
    destruct (Nat.ltb_spec (length (upto_extensions t)) (length (upto_extensions t) + S (length (private_text p)))); [|lia].
    replace (upto_extensions t ++ dash :: private_text p) with ((upto_extensions t ++ [dash]) ++ private_text p) in *
      by (rewrite <- app_assoc; reflexivity).
    replace (length (upto_extensions t) + 1) with (length (upto_extensions t ++ [dash])) by (rewrite app_length; reflexivity).
    rewrite slice_from_app; auto.
  - cbn [dtail flat_map length]. rewrite Nat.add_0_r, Nat.ltb_irrefl. reflexivity.
Qed.

(** * 3. Where the code returns, the repair returns the same *)

Definition refined {A} (x y : outcome A) : Prop := forall a, x = Ret a -> y = Ret a.

Lemma refined_refl {A} (x : outcome A) : refined x x.
Proof. intros a E. exact E. Qed.
Lemma refined_bind {A B} (x y : outcome A) (f g : A -> outcome B) :
  refined x y -> (forall a, refined (f a) (g a)) -> refined (bind x f) (bind y g).
Proof.
  intros H K b E. destruct x as [a| |]; try discriminate E. rewrite (H a eq_refl). exact (K a b E).
Qed.
Lemma guarded_refined s off f : refined (find_list_end s off f) (find_list_end_guarded s off f).
Proof.
  intros a E. unfold find_list_end_guarded. destruct (Nat.ltb_spec (length s) off) as [L|]; [|exact E].
  rewrite find_list_end_panic in E by exact L. discriminate E.
Qed.

Lemma language_end_refined s : refined (language_end s) (language_end_with find_list_end_guarded s).
Proof. apply guarded_refined. Qed.
Lemma script_range_refined s : refined (script_range s) (script_range_with find_list_end_guarded s).
Proof.
  apply refined_bind; [apply language_end_refined|]. intros e.
  apply refined_bind; [apply guarded_refined|]. intros. apply refined_refl.
Qed.
Lemma region_range_refined s : refined (region_range s) (region_range_with find_list_end_guarded s).
Proof.
  apply refined_bind; [apply script_range_refined|]. intros e.
  apply refined_bind; [apply guarded_refined|]. intros. apply refined_refl.
Qed.
Lemma variants_range_refined s : refined (variants_range s) (variants_range_with find_list_end_guarded s).
Proof.
  apply refined_bind; [apply region_range_refined|]. intros e.
  apply refined_bind; [apply guarded_refined|]. intros. apply refined_refl.
Qed.
Lemma extensions_range_refined s : refined (extensions_range s) (extensions_range_with find_list_end_guarded s).
Proof.
  apply refined_bind; [apply variants_range_refined|]. intros e.
  apply refined_bind; [apply guarded_refined|]. intros. apply refined_refl.
Qed.

Lemma repaired_refines s :
  refined (NormalLangTag_language s) (repaired_language s) /\
  refined (NormalLangTag_script s) (repaired_script s) /\
  refined (NormalLangTag_region s) (repaired_region s) /\
  refined (NormalLangTag_variants s) (repaired_variants s) /\
  refined (NormalLangTag_extensions s) (repaired_extensions s).
Proof.
  repeat split; (apply refined_bind; [|intros; apply refined_refl]).
  - apply language_end_refined.
  - apply script_range_refined.
  - apply region_range_refined.
  - apply variants_range_refined.
  - apply extensions_range_refined.
Qed.
