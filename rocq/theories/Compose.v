(** Proofs about letter case, positions, cuts and composition (C35, C36, C38, C39). *)
From Verif Require Import Base GrammarRs Validate Utils Grandfathered Normal LangTag Newtypes Derived Spec
  Observe RegexEquiv Accept AcceptTag Case CaseTag Direct Parse Scan Access Iter Kind Grammar Parts.

(** * 1. Letter case *)

Lemma ends_lower t :
  ends_by_language (lower_tag t) = ends_by_language t /\ ends_by_script (lower_tag t) = ends_by_script t /\
  ends_by_region (lower_tag t) = ends_by_region t /\ ends_by_variants (lower_tag t) = ends_by_variants t.
Proof.
  unfold ends_by_language, ends_by_script, ends_by_region, ends_by_variants, lower_tag.
  cbn [t_script t_region t_variants t_extensions t_private].
  destruct (t_script t), (t_region t), (t_variants t), (t_extensions t), (t_private t); repeat split.
Qed.

Lemma rest_lower t : rest_subtags (lower_tag t) = map (map lower) (rest_subtags t).
Proof.
  unfold rest_subtags, lower_tag. cbn [t_extensions t_private]. rewrite lower_ext_parts, map_app. f_equal.
  destruct (t_private t); reflexivity.
Qed.

Lemma same_opt_map (x y : option bytes) : option_map (map lower) x = option_map (map lower) y -> same_opt x y.
Proof.
  destruct x, y; cbn; intros E; try discriminate E; try exact I. injection E as E. exact E.
Qed.

Theorem accessors_case s s' t t' : is_tag s t -> is_tag s' t' -> same_ci s s' ->
  same_outcome same_ci (NormalLangTag_language s) (NormalLangTag_language s') /\
  same_outcome same_opt (NormalLangTag_script s) (NormalLangTag_script s') /\
  same_outcome same_opt (NormalLangTag_region s) (NormalLangTag_region s') /\
  same_outcome same_ci (NormalLangTag_variants s) (NormalLangTag_variants s') /\
  same_outcome same_ci (NormalLangTag_extensions s) (NormalLangTag_extensions s') /\
  same_outcome same_opt (NormalLangTag_private_use s) (NormalLangTag_private_use s').
Proof.
  intros H H' E.
  assert (L : lower_tag t = lower_tag t').
  { destruct H as [H ->], H' as [H' ->]. apply same_ci_components; auto. }
  pose proof (ends_lower t) as (E1 & E2 & E3 & E4). pose proof (ends_lower t') as (F1 & F2 & F3 & F4).
  rewrite L in E1, E2, E3, E4. pose proof (rest_lower t) as R. pose proof (rest_lower t') as R'. rewrite L in R.
  rewrite (language_exact s t H), (language_exact s' t' H'), (script_exact s t H), (script_exact s' t' H'),
    (region_exact s t H), (region_exact s' t' H'), (variants_exact s t H), (variants_exact s' t' H'),
    (extensions_exact s t H), (extensions_exact s' t' H'), (private_use_exact s t H), (private_use_exact s' t' H').
  rewrite <- E1, <- E2, <- E3, <- E4, <- F1, <- F2, <- F3, <- F4.
  injection L as L1 L2 L3 L4 L5 L6.
  repeat split.
  - cbn [same_outcome same_opt]. unfold same_ci. rewrite !lower_language_text. unfold lower_language. congruence.
  - destruct (ends_by_language (lower_tag t')); [exact I|]. apply same_opt_map. congruence.
  - destruct (ends_by_script (lower_tag t')); [exact I|]. apply same_opt_map. congruence.
  - destruct (ends_by_region (lower_tag t')); [exact I|]. cbn [same_outcome same_opt]. unfold same_ci. rewrite !map_lower_join. congruence.
  - destruct (ends_by_variants (lower_tag t')); [exact I|]. cbn [same_outcome same_opt]. unfold same_ci. rewrite !lower_extensions_text. congruence.
  - destruct (ends_by_region (lower_tag t')); [exact I|]. cbn [same_outcome].
    destruct (ends_by_variants (lower_tag t')); [exact I|]. cbn [same_outcome same_opt]. unfold same_ci. rewrite !map_lower_join. congruence.
Qed.

(** * 2. Positions *)

(** Text before component [i], and its own subtags. *)
Definition before (i : nat) (t : tag) : bytes :=
  match i with 0 => [] | 1 => upto_language t | 2 => upto_script t | 3 => upto_region t | _ => upto_variants t end.
Definition own (i : nat) (t : tag) : list bytes :=
  match i with
  | 0 => language_subtags (t_language t)
  | 1 => opt_list (t_script t)
  | 2 => opt_list (t_region t)
  | 3 => t_variants t
  | _ => flat_map extension_parts (t_extensions t)
  end.

Lemma list_range_present p a : forallb seg_ok a = true ->
  (if fst (list_range p a) <? snd (list_range p a) then Some (list_range p a) else None) =
  match a with [] => None | _ => Some (length p + 1, length p + 1 + length (join a)) end.
Proof.
  intros Sa. destruct a as [|x a].
  - cbn [list_range fst snd]. rewrite Nat.ltb_irrefl. reflexivity.
  - pose proof (join_length (x :: a) ltac:(discriminate) Sa) as L.
    unfold list_range. cbn [fst snd]. rewrite app_length, dtail_join by discriminate. cbn [length].
    destruct (Nat.ltb_spec (length p + 1) (length p + S (length (join (x :: a))))); [|lia].
    do 2 f_equal. lia.
Qed.

Lemma range_of_present p o : ok (range_of p o) =
  match opt_list o with [] => None | a => Some (length p + 1, length p + 1 + length (join a)) end.
Proof. destruct o; reflexivity. Qed.

Lemma component_range_spec i s t r : is_tag s t -> component_range i s = Ret (Some r) ->
  own i t <> [] /\
  r = match i with
      | 0 => (0, length (join (own 0 t)))
      | _ => (length (before i t) + 1, length (before i t) + 1 + length (join (own i t)))
      end.
Proof.
  intros [H ->] E. pose proof (tag_segs t H) as S. cbn [forallb] in S. rewrite !andb_true_iff in S.
  destruct S as (S1 & S2 & S3 & S4 & S5 & _).
  destruct i as [|[|[|[|i]]]]; cbn [component_range own before] in *.
  - rewrite (language_end_spec t H) in E. cbn [bind] in E. injection E as <-. split; [discriminate|reflexivity].
  - rewrite (script_range_spec t H) in E. destruct (after_language t); [discriminate|]. cbn [bind] in E.
    rewrite range_of_present in E. destruct (opt_list (t_script t)) eqn:O; [discriminate|].
    injection E as <-. split; [discriminate|reflexivity].
  - rewrite (region_range_spec t H) in E. destruct (after_script t); [discriminate|]. cbn [bind] in E.
    rewrite range_of_present in E. destruct (opt_list (t_region t)) eqn:O; [discriminate|].
    injection E as <-. split; [discriminate|reflexivity].
  - rewrite (variants_range_spec t H) in E. destruct (after_region t); [discriminate|]. cbn [bind] in E.
    rewrite list_range_present in E by exact S4. destruct (t_variants t) eqn:O; [discriminate|].
    injection E as <-. split; [discriminate|reflexivity].
  - rewrite (extensions_range_spec t H) in E. destruct (after_variants t); [discriminate|]. cbn [bind] in E.
    rewrite list_range_present in E by exact S5. destruct (flat_map extension_parts (t_extensions t)) eqn:O; [discriminate|].
    injection E as <-. split; [discriminate|reflexivity].
Qed.

Lemma component_text i t : exists q, tag_text t =
  match i with 0 => join (own 0 t) | _ => before i t ++ dtail (own i t) end ++ dtail q.
Proof.
  destruct i as [|[|[|[|i]]]]; cbn [own before].
  - eexists. apply cut_language.
  - eexists. apply cut_script.
  - eexists. apply cut_region.
  - eexists. apply cut_variants.
  - eexists. apply cut_extensions.
Qed.

Lemma own_segs i t : tag_ok t = true -> forallb seg_ok (own i t) = true.
Proof.
  intros H. pose proof (tag_segs t H) as S. cbn [forallb] in S. rewrite !andb_true_iff in S.
  destruct S as (S1 & S2 & S3 & S4 & S5 & _). destruct i as [|[|[|[|i]]]]; assumption.
Qed.

Lemma nth_dtail p q : length (p ++ dtail q) = length p \/ nth_error (p ++ dtail q) (length p) = Some dash.
Proof.
  destruct q as [|x q]; [left; cbn [dtail flat_map]; rewrite app_nil_r; reflexivity|].
  right. rewrite nth_error_app2, Nat.sub_diag by lia. reflexivity.
Qed.

Lemma component_aligned i s t a b : is_tag s t -> component_range i s = Ret (Some (a, b)) -> aligned s a b.
Proof.
  intros H E. destruct (component_range_spec i s t _ H E) as [Ne R]. destruct H as [H ->].
  pose proof (own_segs i t H) as Sg. destruct (component_text i t) as [q Eq].
  destruct i as [|i].
  - pose proof (join_length _ Ne Sg) as L. set (x := join (own 0 t)) in *. clearbody x.
    injection R as -> ->. rewrite Eq. unfold aligned. rewrite app_length. split; [lia|]. split; [lia|]. split; [left; reflexivity|].
    destruct (nth_dtail x q) as [D|D]; [left; rewrite app_length in D; lia|right; exact D].
  - rewrite dtail_join in Eq by exact Ne. pose proof (join_length _ Ne Sg) as L.
    set (x := join (own (S i) t)) in *. set (p := before (S i) t) in *. clearbody x p.
    injection R as -> ->.
    replace (p ++ dash :: x) with ((p ++ [dash]) ++ x) in Eq by (rewrite <- app_assoc; reflexivity).
    rewrite Eq. unfold aligned. rewrite !app_length. cbn [length].
    split; [lia|]. split; [lia|]. split.
    + right. replace (length p + 1 - 1) with (length p) by lia.
      rewrite <- !app_assoc. rewrite nth_error_app2, Nat.sub_diag by lia. reflexivity.
    + destruct (nth_dtail ((p ++ [dash]) ++ x) q) as [D|D]; rewrite !app_length in D; cbn [length] in D.
      * left. lia.
      * right. exact D.
Qed.

(** Positions of the components grow. *)
Lemma before_step i t : i < 4 -> length (before (S i) t) =
  match i with 0 => length (join (own 0 t)) | _ => length (before i t) + length (dtail (own i t)) end.
Proof.
  intros H. destruct i as [|[|[|[|i]]]]; try lia; cbn [before own]; try (rewrite <- app_length; reflexivity). reflexivity.
Qed.
Lemma before_mono i j t : i <= j -> length (before i t) <= length (before j t).
Proof.
  intros H. induction H as [|j H IH]; [lia|].
  destruct (le_lt_dec 4 j) as [L|L].
  - destruct j as [|[|[|[|j]]]]; try lia. exact IH.
  - rewrite (before_step j t L). destruct j; [|lia]. assert (i = 0) by lia. subst i. cbn [before length]. lia.
Qed.

Lemma components_ordered i j s t a b c d : is_tag s t -> i < j -> j < 5 ->
  component_range i s = Ret (Some (a, b)) -> component_range j s = Ret (Some (c, d)) -> b < c.
Proof.
  intros H L L5 E E'. destruct (component_range_spec i s t _ H E) as [Ne R].
  destruct (component_range_spec j s t _ H E') as [Ne' R'].
  destruct j as [|j]; [lia|].
  pose proof (before_mono (S i) (S j) t ltac:(lia)) as M. rewrite (before_step i t) in M by lia.
  set (y := before (S j) t) in *. set (z := join (own (S j) t)) in *. clearbody y z. injection R' as -> ->.
  destruct i as [|i].
  - set (x := join (own 0 t)) in *. clearbody x. injection R as -> ->. lia.
  - rewrite dtail_join in M by exact Ne. cbn [length] in M.
    set (x := join (own (S i) t)) in *. set (p := before (S i) t) in *. clearbody x p. injection R as -> ->. lia.
Qed.

(** * 3. Composition *)

Definition new_opt (A : automaton) (o : option bytes) : Prop :=
  match o with Some s => new A s = Ret (Ok s) | None => True end.

Lemma opt_accepted A ok o : (forall s, new A s = Ret (Ok s) <-> ok s = true) -> new_opt A o -> opt_ok ok o = true.
Proof. intros H. destruct o; cbn; [apply H|reflexivity]. Qed.

Theorem composition l c r v e p :
  new Language l = Ret (Ok l) -> new_opt Script c -> new_opt Region r -> new Variants v = Ret (Ok v) ->
  new Extensions e = Ret (Ok e) -> new_opt Privateuse p ->
  exists t,
    is_tag (join_present [l; or_empty c; or_empty r; v; e; or_empty p]) t /\
    language_text (t_language t) = l /\ t_script t = c /\ t_region t = r /\ join (t_variants t) = v /\
    extensions_text (t_extensions t) = e /\ option_map private_text (t_private t) = p.
Proof.
  intros Hl Hc Hr Hv He Hp.
  pose proof direct_decided as (D1 & _ & _ & D4 & _ & _ & _ & D8 & D9 & _ & D11 & _ & _ & D14).
  apply (decides_ok _ _ _ D4) in Hl as (l0 & Hl & El).
  apply (opt_accepted _ _ _ (fun s => decides_ok _ _ s D8)) in Hc.
  apply (opt_accepted _ _ _ (fun s => decides_ok _ _ s D9)) in Hr.
  apply (decides_ok _ _ _ D11) in Hv as (v0 & Hv & Ev).
  apply (decides_ok _ _ _ D14) in He as (e0 & He & Ee).
  assert (exists p0, opt_ok private_ok p0 = true /\ option_map private_text p0 = p) as (p0 & Hp0 & Ep).
  { destruct p as [p|]; [|exists None; split; reflexivity]. cbn in Hp. apply (decides_ok _ _ _ D1) in Hp as (p0 & Hp & Ep).
    exists (Some p0). split; [exact Hp|]. cbn [option_map]. rewrite Ep. reflexivity. }
  set (t := Tag l0 c r v0 e0 p0).
  assert (Ht : tag_ok t = true) by (apply tag_ok_parts; repeat split; assumption).
  exists t. split.
  - split; [exact Ht|]. rewrite <- (reassemble_spec t Ht). cbn [t t_language t_script t_region t_variants t_extensions t_private].
    congruence.
  - cbn [t t_language t_script t_region t_variants t_extensions t_private]. repeat split; congruence.
Qed.

(** * 4. Cuts *)

Fixpoint cut_exts (n : nat) (l : list extension) : list extension :=
  match n, l with
  | 0, _ | _, [] => []
  | S m, e :: l' => Ext (e_singleton e) (firstn m (e_subtags e)) :: cut_exts (m - length (e_subtags e)) l'
  end.
Definition cut_opt {A} (n : nat) (o : option A) : option A := match n with 0 => None | _ => o end.
Definition cut_private (n : nat) (o : option private) : option private :=
  match n, o with
  | S m, Some p => Some (Priv (p_x p) (firstn m (p_subtags p)))
  | _, _ => None
  end.

Definition cut_tag (n : nat) (t : tag) : tag :=
  let n1 := n - length (language_subtags (t_language t)) in
  let n2 := n1 - length (opt_list (t_script t)) in
  let n3 := n2 - length (opt_list (t_region t)) in
  let n4 := n3 - length (t_variants t) in
  let n5 := n4 - length (flat_map extension_parts (t_extensions t)) in
  Tag (Lang (l_primary (t_language t)) (firstn (n - 1) (l_extlangs (t_language t))))
      (cut_opt n1 (t_script t)) (cut_opt n2 (t_region t)) (firstn n3 (t_variants t))
      (cut_exts n4 (t_extensions t)) (cut_private n5 (t_private t)).

Lemma cut_exts_parts l : forall n, flat_map extension_parts (cut_exts n l) = firstn n (flat_map extension_parts l).
Proof.
  induction l as [|e l IH]; intros n; destruct n as [|n]; try reflexivity.
  cbn [cut_exts flat_map]. rewrite IH. unfold extension_parts at 1 3. cbn [e_singleton e_subtags app firstn].
  rewrite firstn_app. reflexivity.
Qed.

Lemma cut_tag_subtags n t : 1 <= n -> tag_subtags (cut_tag n t) = firstn n (tag_subtags t).
Proof.
  intros Hn. unfold tag_subtags, cut_tag. cbn [t_language t_script t_region t_variants t_extensions t_private].
  rewrite !firstn_app. rewrite cut_exts_parts. apply f_equal2; [|apply f_equal2; [|apply f_equal2; [|apply f_equal2; [reflexivity|apply f_equal2; [reflexivity|]]]]].
  - unfold language_subtags. cbn [l_primary l_extlangs]. destruct n as [|n]; [lia|]. cbn [firstn].
    replace (S n - 1) with n by lia. reflexivity.
  - generalize (n - length (language_subtags (t_language t))). intros m. destruct m, (t_script t); reflexivity || (cbn; rewrite firstn_nil; reflexivity).
  - match goal with |- context [cut_opt ?k _] => generalize k end. intros m. destruct m, (t_region t); reflexivity || (cbn; rewrite firstn_nil; reflexivity).
  - match goal with |- context [cut_private ?k _] => generalize k end. intros m.
    destruct m, (t_private t); try reflexivity.
Qed.

Lemma forallb_firstn {A} (p : A -> bool) n : forall l, forallb p l = true -> forallb p (firstn n l) = true.
Proof.
  induction n as [|n IH]; intros [|x l] H; try reflexivity. cbn in *. apply andb_true_iff in H as [-> H]. apply IH, H.
Qed.

(** The last of the subtags kept. *)
Lemma cut_exts_ok l : forall n, extensions_ok l = true ->
  (n <= length (flat_map extension_parts l) -> 1 <= n -> forall x, nth_error (flat_map extension_parts l) (n - 1) = Some x -> 2 <= length x) ->
  extensions_ok (cut_exts n l) = true.
Proof.
  induction l as [|e l IH]; intros n H Hlast; destruct n as [|n]; try reflexivity.
  cbn [extensions_ok forallb] in H. apply andb_true_iff in H as [He Hl].
  cbn [cut_exts extensions_ok forallb]. apply andb_true_iff. split.
  - unfold extension_ok in He |- *. cbn [e_singleton e_subtags]. rewrite !andb_true_iff in He. destruct He as [[H1 H2] H3].
    rewrite H1, forallb_firstn by exact H3. rewrite andb_true_r. cbn [andb].
    apply Nat.leb_le in H2. apply Nat.leb_le. destruct n as [|n].
    + exfalso. cbn [flat_map extension_parts app length] in Hlast.
      specialize (Hlast ltac:(lia) ltac:(lia) [e_singleton e] eq_refl). cbn in Hlast. lia.
    + destruct (e_subtags e); cbn in *; lia.
  - apply IH; [exact Hl|]. intros B1 B2 x Hx. apply Hlast.
    + cbn [flat_map extension_parts app length]. rewrite app_length. lia.
    + lia.
    + cbn [flat_map extension_parts app]. replace (S n - 1) with n by lia.
      destruct n as [|n]; [lia|]. cbn [nth_error]. rewrite nth_error_app2 by lia.
      replace (n - length (e_subtags e)) with (S n - length (e_subtags e) - 1) by lia. exact Hx.
Qed.

Lemma nth_error_skip {A} (a b : list A) n : length a < n -> nth_error (a ++ b) (n - 1) = nth_error b (n - length a - 1).
Proof. intros H. rewrite nth_error_app2 by lia. f_equal. lia. Qed.

Theorem cut_tag_ok n t : tag_ok t = true -> 1 <= n <= length (tag_subtags t) ->
  (forall x, nth_error (tag_subtags t) (n - 1) = Some x -> 2 <= length x) -> tag_ok (cut_tag n t) = true.
Proof.
  intros H Hn Hx. apply tag_ok_parts in H as (H1 & H2 & H3 & H4 & H5 & H6).
  apply tag_ok_parts. unfold cut_tag. cbn [t_language t_script t_region t_variants t_extensions t_private].
  repeat split.
  - unfold language_ok in *. cbn [l_primary l_extlangs]. apply orb_true_iff in H1. apply orb_true_iff.
    destruct H1 as [H1|H1]; [left|right].
    + rewrite !andb_true_iff in *. destruct H1 as [[A B] C]. repeat split; auto using forallb_firstn.
      apply Nat.leb_le in B. apply Nat.leb_le. rewrite firstn_length. lia.
    + rewrite !andb_true_iff in *. destruct H1 as [A B]. split; [exact A|]. destruct (l_extlangs (t_language t)); [|discriminate].
      rewrite firstn_nil. reflexivity.
  - match goal with |- context [cut_opt ?k _] => destruct k end; [reflexivity|exact H2].
  - match goal with |- context [cut_opt ?k _] => destruct k end; [reflexivity|exact H3].
  - apply forallb_firstn, H4.
  - apply cut_exts_ok; [exact H5|]. intros B1 B2 x E. apply Hx. unfold tag_subtags.
    rewrite !nth_error_skip by lia.
    rewrite nth_error_app1; [exact E|]. lia.
  - match goal with |- context [cut_private ?k _] => destruct k as [|m] eqn:M end; [reflexivity|].
    destruct (t_private t) as [p|] eqn:P; [|reflexivity].
    cbn [cut_private opt_ok] in *. unfold private_ok in *. cbn [p_x p_subtags]. rewrite !andb_true_iff in *.
    destruct H6 as [[A B] C]. repeat split; auto using forallb_firstn.
    apply Nat.leb_le in B. apply Nat.leb_le. destruct m as [|m].
    + exfalso. specialize (Hx [p_x p]). unfold tag_subtags in Hx. rewrite !nth_error_skip in Hx by lia.
      rewrite M, P in Hx. specialize (Hx eq_refl). cbn in Hx. lia.
    + destruct (p_subtags p); cbn in *; lia.
Qed.

Lemma split_dash p q : split (p ++ dash :: q) = split p ++ split q.
Proof.
  induction p as [|b p IH]; [reflexivity|]. cbn [app split].
  destruct (beq b dash); rewrite IH; [reflexivity|].
  pose proof (split_not_nil p). destruct (split p) as [|x l]; [congruence|]. reflexivity.
Qed.

Lemma split_last p c d : c <> dash -> d <> dash ->
  exists x l, split (p ++ [c; d]) = l ++ [x] /\ 2 <= length x.
Proof.
  intros Hc Hd. apply beq_false in Hc, Hd. induction p as [|b p IH].
  - cbn [app split]. rewrite Hc, Hd. exists [c; d], []. split; [reflexivity|cbn; lia].
  - destruct IH as (x & l & E & L). cbn [app split]. rewrite E. destruct (beq b dash).
    + exists x, ([] :: l). split; [reflexivity|exact L].
    + destruct l as [|y l]; [exists (b :: x), []|exists x, ((b :: y) :: l)]; (split; [reflexivity|]); cbn; lia.
Qed.

Lemma tag_split s t : is_tag s t -> split s = tag_subtags t.
Proof. intros [H ->]. apply split_join; [apply tag_subtags_nil|apply segs_dash_free, segs_tag, H]. Qed.

Theorem cut_anywhere s t p q : is_tag s t -> s = p ++ dash :: q ->
  (exists p' c d, p = p' ++ [c; d] /\ c <> dash) ->
  is_tag p (cut_tag (length (split p)) t).
Proof.
  intros Ht E (p' & c & d & Ep & Hc).
  pose proof (tag_split s t Ht) as Es. destruct Ht as [Ht Et].
  assert (Hd : d <> dash).
  { intros ->. apply (join_no_double (tag_subtags t) (segs_tag t Ht) (p' ++ [c]) q).
    fold (tag_text t). rewrite <- Et, E, Ep, <- !app_assoc. reflexivity. }
  destruct (split_last p' c d Hc Hd) as (x & l & El & Lx). rewrite <- Ep in El.
  rewrite E, split_dash in Es.
  assert (Hp : 1 <= length (split p)).
  { pose proof (split_not_nil p). destruct (split p); [congruence|cbn; lia]. }
  assert (Hf : firstn (length (split p)) (tag_subtags t) = split p).
  { rewrite <- Es. rewrite firstn_app, firstn_all, Nat.sub_diag. cbn [firstn]. apply app_nil_r. }
  split.
  - apply cut_tag_ok; [exact Ht| |].
    + split; [exact Hp|]. rewrite <- Es, app_length. lia.
    + intros y Hy. rewrite <- Es in Hy. rewrite nth_error_app1 in Hy by lia.
      rewrite El in Hy. rewrite app_length in Hy. cbn [length] in Hy.
      rewrite nth_error_app2 in Hy by lia. replace (length l + 1 - 1 - length l) with 0 in Hy by lia.
      injection Hy as <-. exact Lx.
  - unfold tag_text. rewrite cut_tag_subtags by exact Hp. rewrite Hf. symmetry. apply join_split.
Qed.

(** Keep the first components only. *)
Lemma keep_ok t c r v e : tag_ok t = true -> (c = None \/ c = t_script t) -> (r = None \/ r = t_region t) ->
  (exists k, v = firstn k (t_variants t)) -> (exists k, e = firstn k (t_extensions t)) ->
  tag_ok (Tag (t_language t) c r v e None) = true.
Proof.
  intros H Hc Hr [k ->] [k' ->]. apply tag_ok_parts in H as (H1 & H2 & H3 & H4 & H5 & H6).
  apply tag_ok_parts. cbn [t_language t_script t_region t_variants t_extensions t_private].
  repeat split; auto.
  - destruct Hc as [-> | ->]; [reflexivity|exact H2].
  - destruct Hr as [-> | ->]; [reflexivity|exact H3].
  - apply forallb_firstn, H4.
  - apply forallb_firstn, H5.
Qed.

Lemma is_tag_accepted s t : is_tag s t -> new Langtag s = Ret (Ok s).
Proof. intros H. apply new_ok; [apply high_Langtag|]. apply langtag_is_tag. eauto. Qed.

Lemma private_accepted p : private_ok p = true -> new LanguageTag (private_text p) = Ret (Ok (private_text p)).
Proof.
  intros H. apply new_ok; [apply high_LanguageTag|]. apply accepts_tag_cases. right. left.
  apply privateuse_is_private. eauto.
Qed.

Lemma prefix_of t t' l : tag_subtags t = tag_subtags t' ++ l -> exists q, tag_text t = tag_text t' ++ q.
Proof. intros E. exists (dtail l). unfold tag_text. rewrite E. apply join_app, tag_subtags_nil. Qed.

Lemma keep_prefix t : let keep c r v e := Tag (t_language t) c r v e None in
  (exists q, tag_text t = tag_text (keep None None [] []) ++ q) /\
  (exists q, tag_text t = tag_text (keep (t_script t) None [] []) ++ q) /\
  (forall k, exists q, tag_text t = tag_text (keep (t_script t) (t_region t) (firstn k (t_variants t)) []) ++ q) /\
  (forall k, exists q, tag_text t = tag_text (keep (t_script t) (t_region t) (t_variants t) (firstn k (t_extensions t))) ++ q).
Proof.
  intros keep. unfold keep. repeat split; [| |intros k|intros k]; eapply prefix_of; unfold tag_subtags;
    cbn [t_language t_script t_region t_variants t_extensions t_private opt_list opt_parts].
  - rewrite <- !app_assoc. cbn [flat_map app]. reflexivity.
  - rewrite <- !app_assoc. cbn [flat_map app]. reflexivity.
  - rewrite <- (firstn_skipn k (t_variants t)) at 1. rewrite <- !app_assoc. cbn [flat_map app]. reflexivity.
  - rewrite <- (firstn_skipn k (t_extensions t)) at 1. rewrite flat_map_app, <- !app_assoc. cbn [app]. reflexivity.
Qed.
