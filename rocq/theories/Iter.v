(** Proofs about the iterators, [Extensions::get] and [Language::primary]/[extension]. *)
From Verif Require Import Base GrammarRs Validate Utils Grandfathered Normal LangTag Newtypes Derived Spec
  Observe RegexEquiv Accept Case Direct Parse Scan Access.

(** The body shared by [PrivateUseIter::next], [ExtensionIter::next] and [LanguageExtensionIter::next]. *)
Definition segment_next (it : iter) : outcome (option bytes * iter) :=
  if it_offset it <? length (it_data it) then
    let! e := find_segment_end (it_data it) (it_offset it) in
    let! item := slice (it_data it) (it_offset it) e in
    Ret (Some item, Iter (it_data it) (e + 1))
  else Ret (None, it).

Lemma PrivateUseIter_next_eq : PrivateUseIter_next = segment_next. Proof. reflexivity. Qed.
Lemma ExtensionIter_next_eq : ExtensionIter_next = segment_next. Proof. reflexivity. Qed.
Lemma LanguageExtensionIter_next_eq : LanguageExtensionIter_next = segment_next. Proof. reflexivity. Qed.

Lemma calls_expected {I} (next : I -> outcome (option bytes * I)) (Inv : I -> list bytes -> Prop)
  (Hnil : forall it, Inv it [] -> exists it', next it = Ret (None, it') /\ Inv it' [])
  (Hcons : forall it x l, Inv it (x :: l) -> exists it', next it = Ret (Some x, it') /\ Inv it' l) :
  forall k it l, Inv it l -> calls next k it = Ret (expected_next k l).
Proof.
  induction k as [|k IH]; intros it l H; cbn [calls expected_next]; [reflexivity|].
  destruct l as [|x l].
  - destruct (Hnil _ H) as (it' & -> & H'). cbn. rewrite (IH _ _ H'). reflexivity.
  - destruct (Hcons _ _ _ H) as (it' & -> & H'). cbn. rewrite (IH _ _ H'). reflexivity.
Qed.

(** * 1. Iterators over subtags *)

(** [it] is before the subtags [l]. *)
Definition at_segs (it : iter) (l : list bytes) : Prop :=
  ascii (it_data it) = true /\ forallb seg_ok l = true /\
  match l with
  | [] => length (it_data it) <= it_offset it
  | _ => exists p, it_data it = p ++ join l /\ it_offset it = length p
  end.

Lemma at_segs_nil it : at_segs it [] -> exists it', segment_next it = Ret (None, it') /\ at_segs it' [].
Proof.
  intros H. exists it. split; auto. destruct H as (_ & _ & H). unfold segment_next.
  destruct (Nat.ltb_spec (it_offset it) (length (it_data it))); [lia|reflexivity].
Qed.

Lemma at_segs_cons it x l : at_segs it (x :: l) -> exists it', segment_next it = Ret (Some x, it') /\ at_segs it' l.
Proof.
  intros (Ha & Hs & p & Hd & Ho). cbn [forallb] in Hs. apply andb_true_iff in Hs as [Hx Hl].
  exists (Iter (it_data it) (length p + length x + 1)). split.
  - unfold segment_next. rewrite Ho, Hd, join_cons in *.
    pose proof (seg_length x Hx). destruct (Nat.ltb_spec (length p) (length (p ++ x ++ dtail l))) as [_|H'].
    2:{ rewrite !app_length in H'. lia. }
    rewrite find_segment_end_spec by (apply seg_dash_free; auto). cbn [bind]. rewrite slice_mid by auto. reflexivity.
  - split; [auto|]. split; [auto|]. cbn [it_data it_offset]. rewrite Hd, join_cons. destruct l as [|y l].
    + cbn. rewrite app_nil_r, app_length. lia.
    + exists (p ++ x ++ [dash]). rewrite dtail_join by discriminate. rewrite !app_length, <- !app_assoc. cbn. split; auto. lia.
Qed.

Theorem segment_calls k it l : at_segs it l -> calls segment_next k it = Ret (expected_next k l).
Proof. apply calls_expected; [apply at_segs_nil|apply at_segs_cons]. Qed.

Lemma iter_default_at : at_segs iter_default [].
Proof. repeat split; cbn; auto. Qed.

(** An iterator starting after a one-byte subtag and its '-'. *)
Lemma at_segs_after b l : forallb seg_ok ([b] :: l) = true -> at_segs (Iter (join ([b] :: l)) 2) l.
Proof.
  intros H. split; [apply join_ascii; auto|]. cbn [forallb] in H. apply andb_true_iff in H as [_ H].
  split; [auto|]. cbn [it_data it_offset]. destruct l as [|x l]; [cbn; lia|].
  exists [b; dash]. split; [|reflexivity]. rewrite join_cons, dtail_join by discriminate. reflexivity.
Qed.

Lemma at_segs_start l : forallb seg_ok l = true -> at_segs (Iter (join l) 0) l.
Proof.
  intros H. split; [apply join_ascii; auto|]. split; [auto|]. destruct l; cbn [it_data it_offset]; [cbn; lia|].
  exists []. auto.
Qed.

Lemma PrivateUse_iter_spec p : private_ok p = true -> at_segs (PrivateUse_iter (private_text p)) (p_subtags p).
Proof.
  intros H. apply segs_private in H. apply at_segs_after. exact H.
Qed.

Lemma Extension_iter_spec e : extension_ok e = true -> at_segs (Extension_iter (extension_text e)) (e_subtags e).
Proof. intros H. apply segs_extension in H. apply at_segs_after. exact H. Qed.

Lemma LanguageExtension_iter_spec l : extlangs_ok l = true -> at_segs (LanguageExtension_iter (join l)) l.
Proof. intros H. apply at_segs_start, segs_extlangs, H. Qed.

(** * 2. Variants *)

Definition at_variants (it : viter) (l : list bytes) : Prop :=
  ascii (v_data it) = true /\ forallb seg_ok l = true /\
  match l with
  | [] => v_end it <= v_offset it
  | _ => exists p b, v_data it = p ++ join l ++ dtail b /\ (p = [] \/ exists p', p' <> [] /\ p = p' ++ [dash]) /\
                     v_offset it = length p /\ v_end it = length p + length (join l)
  end.

Lemma at_variants_nil it : at_variants it [] ->
  VariantsIter_next it = Ret (None, it) /\ VariantsIter_next_back it = Ret (None, it).
Proof.
  intros (_ & _ & H). unfold VariantsIter_next, VariantsIter_next_back.
  destruct (Nat.ltb_spec (v_offset it) (v_end it)); [lia|auto].
Qed.

Lemma at_variants_front it x l : at_variants it (x :: l) ->
  exists it', VariantsIter_next it = Ret (Some x, it') /\ at_variants it' l.
Proof.
  intros (Ha & Hs & p & b & Hd & Hp & Ho & He). pose proof Hs as Hs'.
  cbn [forallb] in Hs. apply andb_true_iff in Hs as [Hx Hl]. pose proof (seg_length x Hx) as HL.
  assert (Hd' : v_data it = p ++ x ++ dtail (l ++ b)) by (rewrite Hd, join_cons, dtail_app, <- app_assoc; reflexivity).
  exists (VIter (v_data it) (length p + length x + 1) (v_end it)). split.
  - unfold VariantsIter_next. rewrite Ho, He.
    destruct (Nat.ltb_spec (length p) (length p + length (join (x :: l)))) as [_|H'].
    2:{ rewrite join_cons, app_length in H'. lia. }
    rewrite Hd' in *. rewrite find_segment_end_spec by (apply seg_dash_free; auto). cbn [bind].
    rewrite slice_mid by auto. reflexivity.
  - split; [auto|]. split; [auto|]. cbn [v_data v_offset v_end]. destruct l as [|y l].
    + rewrite He. cbn. lia.
    + exists (p ++ x ++ [dash]), b. repeat split.
      * rewrite Hd, (join_cons x), dtail_join by discriminate. rewrite <- !app_assoc. reflexivity.
      * right. exists (p ++ x). split; [|rewrite app_assoc; reflexivity].
        intros N. apply app_eq_nil in N as [_ ->]. cbn in HL. lia.
      * rewrite !app_length. cbn. lia.
      * rewrite He, (join_cons x), dtail_join by discriminate. rewrite !app_length. cbn [length]. lia.
Qed.

Lemma at_variants_back it x l : at_variants it (l ++ [x]) ->
  exists it', VariantsIter_next_back it = Ret (Some x, it') /\ at_variants it' l.
Proof.
  intros (Ha & Hs & H). assert (exists p b, v_data it = p ++ join (l ++ [x]) ++ dtail b /\
    (p = [] \/ exists p', p' <> [] /\ p = p' ++ [dash]) /\ v_offset it = length p /\
    v_end it = length p + length (join (l ++ [x]))) as (p & b & Hd & Hp & Ho & He)
    by (destruct l; exact H). clear H.
  assert (Hp' : p = [] \/ exists p', p = p' ++ [dash]) by (destruct Hp as [?|(p' & _ & ?)]; eauto).
  rewrite forallb_app in Hs. cbn [forallb] in Hs. rewrite andb_true_r in Hs. apply andb_true_iff in Hs as [Hl Hx].
  pose proof (seg_length x Hx) as HL.
  assert (Hx0 : x <> []) by (intros ->; cbn in HL; lia).
  destruct l as [|y l].
  - exists (VIter (v_data it) (v_offset it) (if 0 <? length p then length p - 1 else 0)).
    cbn [app join] in Hd, He. split.
    + unfold VariantsIter_next_back. rewrite Ho, He.
      destruct (Nat.ltb_spec (length p) (length p + length x)); [|lia].
      rewrite Hd in *. rewrite find_segment_start_spec by (auto using seg_dash_free). cbn [bind].
      rewrite slice_mid by auto. reflexivity.
    + split; [auto|]. split; [auto|]. cbn [v_end v_offset]. rewrite Ho.
      destruct (Nat.ltb_spec 0 (length p)); lia.
  - set (q := p ++ join (y :: l) ++ [dash]).
    assert (Hj : join ((y :: l) ++ [x]) = join (y :: l) ++ dash :: x).
    { rewrite join_app by discriminate. cbn. rewrite app_nil_r. reflexivity. }
    rewrite Hj in *.
    assert (Hd' : v_data it = q ++ x ++ dtail b) by (rewrite Hd; unfold q; rewrite <- !app_assoc; reflexivity).
    assert (Hq : length q = length p + length (join (y :: l)) + 1) by (unfold q; rewrite !app_length; cbn; lia).
    exists (VIter (v_data it) (v_offset it) (if 0 <? length q then length q - 1 else 0)). split.
    + unfold VariantsIter_next_back. rewrite Ho, He.
      replace (length p + length (join (y :: l) ++ dash :: x)) with (length q + length x)
        by (rewrite Hq, app_length; cbn [length]; lia).
      destruct (Nat.ltb_spec (length p) (length q + length x)); [|lia].
      rewrite Hd' in *. rewrite find_segment_start_spec.
      * cbn [bind]. rewrite slice_mid by auto. reflexivity.
      * apply seg_dash_free; auto.
      * auto.
      * right. unfold q. exists (p ++ join (y :: l)). rewrite app_assoc. reflexivity.
    + split; [auto|]. split; [auto|]. cbn [v_data v_offset v_end]. exists p, (x :: b).
      split; [|split; [auto|split; [auto|]]].
      * rewrite Hd. rewrite <- !app_assoc. reflexivity.
      * rewrite Hq. destruct (Nat.ltb_spec 0 (length p + length (join (y :: l)) + 1)); lia.
Qed.

Lemma pop_back_app {A} (l : list A) x : pop_back (l ++ [x]) = (Some x, l).
Proof.
  induction l as [|y l IH]; [reflexivity|]. cbn [app pop_back]. rewrite IH. destruct l; reflexivity.
Qed.

Theorem variants_calls ops : forall it l, at_variants it l ->
  calls_de VariantsIter_next VariantsIter_next_back ops it = Ret (deque_run ops l).
Proof.
  induction ops as [|op ops IH]; intros it l H; cbn [calls_de deque_run]; [reflexivity|].
  destruct op.
  - destruct l as [|x l]; cbn [pop_front].
    + destruct (at_variants_nil it H) as [-> _]. cbn. rewrite (IH _ _ H). reflexivity.
    + destruct (at_variants_front it x l H) as (it' & -> & H'). cbn. rewrite (IH _ _ H'). reflexivity.
  - destruct l as [|x l _] using rev_ind.
    + destruct (at_variants_nil it H) as [_ ->]. cbn. rewrite (IH _ _ H). reflexivity.
    + destruct (at_variants_back it x l H) as (it' & -> & H'). rewrite pop_back_app. cbn.
      rewrite (IH _ _ H'). reflexivity.
Qed.

Lemma Variants_iter_spec l : variants_ok l = true -> at_variants (Variants_iter (join l)) l.
Proof.
  intros H. apply segs_variants in H. split; [apply join_ascii; auto|]. split; [auto|].
  destruct l as [|x l]; [cbn; lia|]. exists [], []. cbn [dtail flat_map app]. rewrite app_nil_r. repeat split; auto.
Qed.

(** * 3. Extensions *)

Definition at_exts (it : iter) (l : list extension) : Prop :=
  ascii (it_data it) = true /\ extensions_ok l = true /\
  match l with
  | [] => length (it_data it) <= it_offset it
  | _ => exists p, it_data it = p ++ extensions_text l /\ it_offset it = length p
  end.

Lemma extension_ok_parts b l : extension_ok (Ext b l) = true ->
  singleton_ok b = true /\ l <> [] /\ forallb ext_subtag_ok l = true.
Proof.
  unfold extension_ok. cbn [e_singleton e_subtags]. rewrite !andb_true_iff. intros [[H1 H2] H3].
  repeat split; auto. destruct l; [discriminate|congruence].
Qed.

Lemma extensions_head_one l : one_byte_head (flat_map extension_parts l).
Proof. destruct l; cbn; auto. Qed.

(** The subtags of the first extension of [e :: l], scanned from after its singleton. *)
Lemma scan_extension p b xs l f ok :
  ascii (p ++ extensions_text (Ext b xs :: l)) = true ->
  extensions_ok (Ext b xs :: l) = true ->
  (forall off x, f off x = Ret (ok x)) ->
  (forall x, ext_subtag_ok x = true -> ok x = true) -> (forall c, ok [c] = false) ->
  find_list_end (p ++ extensions_text (Ext b xs :: l)) (length p + 2) f =
  Ret (length p + length (extension_text (Ext b xs))).
Proof.
  intros Ha Hok Hf H1 H2. unfold extensions_text in *.
  change (flat_map extension_parts (Ext b xs :: l)) with ([b] :: (xs ++ flat_map extension_parts l)) in *.
  pose proof (segs_extensions _ Hok) as Hs.
  change (flat_map extension_parts (Ext b xs :: l)) with ([b] :: (xs ++ flat_map extension_parts l)) in Hs.
  cbn [forallb] in Hs. apply andb_true_iff in Hs as [_ Hs].
  unfold extensions_ok in Hok. cbn [forallb] in Hok. apply andb_true_iff in Hok as [He Hl].
  apply extension_ok_parts in He as (Hb & Hxs & Hsub).
  rewrite join_cons in *.
  replace (p ++ [b] ++ dtail (xs ++ flat_map extension_parts l))
    with ((p ++ [b]) ++ dtail (xs ++ flat_map extension_parts l)) in * by (rewrite <- app_assoc; reflexivity).
  replace (length p + 2) with (length (p ++ [b]) + 1) by (rewrite app_length; cbn; lia).
  rewrite (stage _ _ _ _ (fun _ x => ok x)).
  - destruct xs as [|x xs]; [congruence|]. cbn [app]. f_equal. unfold extension_text, extension_parts.
    cbn [e_singleton e_subtags]. rewrite join_cons. rewrite !app_length. cbn [length]. lia.
  - auto.
  - apply segs_dash_free; auto.
  - intros off x _. apply Hf.
  - apply all_at_forallb. rewrite forallb_forall in *. auto.
  - apply (stops_at_stops ok). apply one_byte_head_stops; auto. apply extensions_head_one.
Qed.

Lemma extensions_text_cons e l : extensions_text (e :: l) =
  extension_text e ++ match l with [] => [] | _ => dash :: extensions_text l end.
Proof.
  unfold extensions_text. cbn [flat_map]. rewrite join_app by discriminate. f_equal.
  destruct l as [|e' l]; [reflexivity|]. apply dtail_join. discriminate.
Qed.

Lemma at_exts_cons it e l : at_exts it (e :: l) ->
  exists it', ExtensionsIter_next it = Ret (Some (extension_text e), it') /\ at_exts it' l.
Proof.
  intros (Ha & Hok & p & Hd & Ho).
  exists (Iter (it_data it) (length p + length (extension_text e) + 1)). split.
  - unfold ExtensionsIter_next. rewrite Ho, Hd in *.
    destruct (Nat.ltb_spec (length p) (length (p ++ extensions_text (e :: l)))) as [_|H'].
    2:{ rewrite app_length, extensions_text_cons in H'. destruct e as [b [|x xs]]; cbn in H'; lia. }
    destruct e as [b xs]. cbv zeta. rewrite (scan_extension p b xs l _ ext_subtag_ok); auto.
    + cbn [bind]. rewrite extensions_text_cons in *. rewrite slice_mid by auto. reflexivity.
    + intros _ x. apply is_ok_extension_subtag.
  - unfold extensions_ok in Hok. cbn [forallb] in Hok. apply andb_true_iff in Hok as [_ Hok].
    split; [auto|]. split; [auto|]. cbn [it_data it_offset]. rewrite Hd, extensions_text_cons.
    destruct l as [|e' l].
    + rewrite app_nil_r, app_length. lia.
    + exists (p ++ extension_text e ++ [dash]). rewrite <- !app_assoc. split; [reflexivity|]. rewrite !app_length. cbn. lia.
Qed.

Lemma at_exts_nil it : at_exts it [] -> ExtensionsIter_next it = Ret (None, it).
Proof.
  intros (_ & _ & H). unfold ExtensionsIter_next.
  destruct (Nat.ltb_spec (it_offset it) (length (it_data it))); [lia|reflexivity].
Qed.

Theorem extensions_calls k : forall it l, at_exts it l ->
  calls ExtensionsIter_next k it = Ret (expected_next k (map extension_text l)).
Proof.
  induction k as [|k IH]; intros it l H; cbn [calls expected_next]; [reflexivity|].
  destruct l as [|e l].
  - rewrite (at_exts_nil it H). cbn. rewrite (IH _ _ H). reflexivity.
  - destruct (at_exts_cons it e l H) as (it' & -> & H'). cbn. rewrite (IH _ _ H'). reflexivity.
Qed.

Lemma extensions_ascii l : extensions_ok l = true -> ascii (extensions_text l) = true.
Proof. intros H. apply join_ascii, segs_extensions, H. Qed.

Lemma Extensions_iter_spec l : extensions_ok l = true -> at_exts (Extensions_iter (extensions_text l)) l.
Proof.
  intros H. split; [apply extensions_ascii; auto|]. split; [auto|].
  destruct l as [|e l]; [cbn; lia|]. exists []. auto.
Qed.

(** * 4. [Extensions::get] *)

(** Not at the start of a subtag: the loop moves to the next subtag. *)
Lemma get_skip s c z : forall p l fuel, s = p ++ z ++ dtail l -> dash_free z = true ->
  forallb seg_ok l = true -> length s - length p <= fuel ->
  exists fuel',
    Extensions_get_loop fuel s c (length p) false =
    match l with
    | [] => Ret None
    | _ => Extensions_get_loop fuel' s c (length p + length z + 1) true
    end /\ length s - (length p + length z + 1) <= fuel'.
Proof.
  induction z as [|b z IH]; intros p l fuel E Hz Hl Hf.
  - destruct l as [|x l].
    + cbn in E. rewrite app_nil_r in E. subst s. exists (length p). split; [|lia].
      destruct fuel; cbn [Extensions_get_loop]; (destruct (Nat.ltb_spec (length p + 1) (length p)); [lia|]); reflexivity.
    + change (dtail (x :: l)) with (dash :: (x ++ dtail l)) in E. cbn [app] in E.
      cbn [forallb] in Hl. apply andb_true_iff in Hl as [Hx _]. pose proof (seg_length x Hx).
      assert (HL : length p + 1 < length s) by (rewrite E, app_length; cbn; rewrite app_length; lia).
      destruct fuel as [|fuel]; [lia|]. exists fuel. split; [|cbn; lia].
      cbn [Extensions_get_loop]. destruct (Nat.ltb_spec (length p + 1) (length s)); [|lia].
      replace (index s (length p)) with (Ret dash) by (rewrite E, index_app; reflexivity).
      cbn [bind]. rewrite beq_refl. f_equal. cbn. lia.
  - assert (HI : index s (length p) = Ret b) by (rewrite E; cbn [app]; apply index_app).
    cbn [dash_free forallb] in Hz. rewrite andb_true_iff, negb_true_iff in Hz. destruct Hz as [Hb Hz].
    destruct (le_lt_dec (length s) (length p + 1)) as [HL|HL].
    + (* the last byte *)
      assert (l = []) as ->.
      { destruct l as [|x l]; [reflexivity|]. rewrite E in HL. rewrite !app_length in HL. cbn in HL. lia. }
      exists (length s). split; [|lia].
      destruct fuel; cbn [Extensions_get_loop]; (destruct (Nat.ltb_spec (length p + 1) (length s)); [lia|]); reflexivity.
    + destruct fuel as [|fuel]; [lia|]. cbn [Extensions_get_loop].
      destruct (Nat.ltb_spec (length p + 1) (length s)); [|lia]. rewrite HI. cbn [bind]. rewrite Hb.
      destruct (IH (p ++ [b]) l fuel) as (fuel' & H1 & H2); auto.
      { rewrite E, <- app_assoc. reflexivity. }
      { rewrite app_length. cbn. lia. }
      exists fuel'. rewrite app_length in H1, H2. cbn [length] in *. rewrite H1.
      replace (length p + 1 + length z + 1) with (length p + S (length z) + 1) in * by lia. auto.
Qed.

Lemma get_loop_spec s c (Ha : ascii s = true) : forall l p fuel,
  extensions_ok l = true ->
  match l with [] => length s <= length p | _ => s = p ++ extensions_text l end ->
  length s - length p <= fuel ->
  Extensions_get_loop fuel s c (length p) true =
  Ret (option_map extension_text (find (fun e => beq (e_singleton e) c) l)).
Proof.
  (* one subtag that is not a singleton is skipped *)
  assert (Hskip : forall xs p l fuel,
    xs <> [] -> forallb ext_subtag_ok xs = true -> forallb seg_ok l = true -> one_byte_head l ->
    s = p ++ join (xs ++ l) -> length s - length p <= fuel ->
    exists fuel', Extensions_get_loop fuel s c (length p) true =
      match l with [] => Ret None | _ => Extensions_get_loop fuel' s c (length p + length (join xs) + 1) true end /\
      length s - (length p + length (join xs) + 1) <= fuel').
  { induction xs as [|x xs IH]; intros p l fuel Hne Hxs Hl Hh E Hf; [congruence|].
    cbn [forallb] in Hxs. apply andb_true_iff in Hxs as [Hx Hxs].
    pose proof Hx as Hlen. unfold ext_subtag_ok in Hlen. apply sized_spec in Hlen as [Hlen _].
    pose proof (seg_dash_free _ (seg_ext_subtag _ Hx)) as Hd.
    destruct x as [|b0 [|b1 x]]; cbn in Hlen; try lia.
    assert (Hsegs : forallb seg_ok (xs ++ l) = true).
    { rewrite forallb_app, Hl, andb_true_r. rewrite forallb_forall in *. auto using seg_ext_subtag. }
    cbn [app] in E. rewrite join_cons in E.
    assert (HL : length p + 1 < length s) by (rewrite E, !app_length; cbn; lia).
    destruct fuel as [|fuel]; [lia|]. cbn [Extensions_get_loop].
    destruct (Nat.ltb_spec (length p + 1) (length s)); [|lia].
    replace (index s (length p)) with (Ret b0) by (rewrite E; cbn [app]; rewrite index_app; reflexivity).
    cbn [bind].
    replace (index s (length p + 1)) with (Ret b1).
    2:{ replace (length p + 1) with (length (p ++ [b0])) by (rewrite app_length; reflexivity).
        replace s with ((p ++ [b0]) ++ b1 :: x ++ dtail (xs ++ l)) by (rewrite E, <- app_assoc; reflexivity).
        rewrite index_app. reflexivity. }
    cbn [bind].
    assert (Hb1 : beq b1 dash = false).
    { cbn in Hd. rewrite !andb_true_iff, !negb_true_iff in Hd. tauto. }
    rewrite Hb1.
    assert (Hlet : (let! hit := (if beq b0 c then Ret false else Ret false) in
        (if hit then let! e := find_list_end s (length p + 2) (fun _ segment => Ret (1 <? length segment)) in
                     omap Some (slice s (length p) e)
         else Extensions_get_loop fuel s c (length p + 1) false)) =
        Extensions_get_loop fuel s c (length p + 1) false) by (destruct (beq b0 c); reflexivity).
    rewrite Hlet. clear Hlet.
    replace (length p + 1) with (length (p ++ [b0])) by (rewrite app_length; reflexivity).
    destruct (get_skip s c (b1 :: x) (p ++ [b0]) (xs ++ l) fuel) as (fuel1 & H1 & H2); auto.
    { rewrite E, <- app_assoc. reflexivity. }
    { cbn in Hd |- *. rewrite !andb_true_iff in *. tauto. }
    { rewrite app_length. cbn. lia. }
    rewrite H1. rewrite app_length in H2 |- *. cbn [length] in H2 |- *.
    destruct xs as [|y xs].
    - cbn [app]. exists fuel1. cbn [join length]. destruct l; [split; [reflexivity|lia]|].
      split; [f_equal; lia|lia].
    - cbn [app]. 
      destruct (IH (p ++ (b0 :: b1 :: x) ++ [dash]) l fuel1) as (fuel2 & H3 & H4); auto; try discriminate.
      { rewrite E. cbn [app]. rewrite (dtail_join (y :: xs ++ l)) by discriminate.
        rewrite <- !app_assoc. cbn [app]. rewrite <- app_assoc. reflexivity. }
      { rewrite !app_length. cbn [length]. lia. }
      exists fuel2.
      assert (EL : length (p ++ (b0 :: b1 :: x) ++ [dash]) = length p + 1 + S (length x) + 1)
        by (rewrite !app_length; cbn [length]; rewrite ?app_length; cbn [length]; lia).
      rewrite EL in *. rewrite H3.
      rewrite (join_cons (b0 :: b1 :: x)), (dtail_join (y :: xs)) by discriminate.
      rewrite app_length. cbn [length].
      replace (length p + (S (S (length x)) + S (length (join (y :: xs)))) + 1)
        with (length p + 1 + S (length x) + 1 + length (join (y :: xs)) + 1) by lia.
      split; auto. }
  induction l as [|[b xs] l IH]; intros p fuel Hok E Hf.
  - destruct fuel; cbn [Extensions_get_loop]; (destruct (Nat.ltb_spec (length p + 1) (length s)); [lia|]); reflexivity.
  - pose proof Hok as Hok'. unfold extensions_ok in Hok'. cbn [forallb] in Hok'. apply andb_true_iff in Hok' as [He Hl].
    apply extension_ok_parts in He as (Hb & Hxs & Hsub).
    pose proof (segs_extensions _ Hl) as Hsl.
    assert (E' : s = p ++ [b] ++ dash :: join (xs ++ flat_map extension_parts l)).
    { rewrite E. unfold extensions_text. cbn [flat_map]. unfold extension_parts at 1. cbn [e_singleton e_subtags app].
      rewrite join_cons, dtail_join by (destruct xs; [congruence|discriminate]). reflexivity. }
    assert (HL : length p + 1 < length s) by (rewrite E', !app_length; cbn [length]; lia).
    destruct fuel as [|fuel]; [lia|]. cbn [Extensions_get_loop].
    destruct (Nat.ltb_spec (length p + 1) (length s)); [|lia].
    replace (index s (length p)) with (Ret b) by (rewrite E'; cbn [app]; rewrite index_app; reflexivity).
    cbn [bind]. cbn [find e_singleton].
    replace (index s (length p + 1)) with (Ret dash).
    2:{ replace (length p + 1) with (length (p ++ [b])) by (rewrite app_length; reflexivity).
        rewrite E', app_assoc, index_app. reflexivity. }
    destruct (beq b c) eqn:Ebc; cbn [bind].
    + rewrite beq_refl. cbn [option_map]. rewrite E in *.
      rewrite (scan_extension p b xs l _ long); auto.
      * cbn [bind]. rewrite extensions_text_cons in *. rewrite slice_mid by auto. reflexivity.
      * apply ext_subtag_long.
    + replace (length p + 1) with (length (p ++ [b])) by (rewrite app_length; reflexivity).
      assert (Hsegs : forallb seg_ok (xs ++ flat_map extension_parts l) = true).
      { rewrite forallb_app, Hsl, andb_true_r. rewrite forallb_forall in *. auto using seg_ext_subtag. }
      destruct (get_skip s c [] (p ++ [b]) (xs ++ flat_map extension_parts l) fuel) as (fuel1 & H1 & H2); auto.
      { rewrite E', dtail_join by (destruct xs; [congruence|discriminate]). rewrite <- app_assoc. reflexivity. }
      { rewrite app_length. cbn. lia. }
      rewrite H1. clear H1.
      replace (match xs ++ flat_map extension_parts l with [] => Ret None
               | _ :: _ => Extensions_get_loop fuel1 s c (length (p ++ [b]) + length (@nil byte) + 1) true end)
        with (Extensions_get_loop fuel1 s c (length (p ++ [b]) + length (@nil byte) + 1) true)
        by (destruct xs; [congruence|reflexivity]).
      set (p2 := p ++ [b; dash]).
      replace (length (p ++ [b]) + length (@nil byte) + 1) with (length p2) in *
        by (unfold p2; rewrite !app_length; cbn; lia).
      destruct (Hskip xs p2 (flat_map extension_parts l) fuel1) as (fuel2 & H3 & H4); auto.
      { apply extensions_head_one. }
      { rewrite E'. unfold p2. rewrite <- app_assoc. reflexivity. }
      rewrite H3. clear H3.
      destruct l as [|e' l]; [reflexivity|].
      set (p3 := p2 ++ join xs ++ [dash]).
      replace (length p2 + length (join xs) + 1) with (length p3) in *
        by (unfold p3; rewrite !app_length; cbn; lia).
      assert (Hm : match flat_map extension_parts (e' :: l) with [] => Ret None
                   | _ :: _ => Extensions_get_loop fuel2 s c (length p3) true end =
                   Extensions_get_loop fuel2 s c (length p3) true) by reflexivity.
      rewrite Hm. apply IH; auto.
      rewrite E'. unfold p3, p2. rewrite join_app by auto. rewrite dtail_join by discriminate.
      rewrite <- !app_assoc. reflexivity.
Qed.

Theorem Extensions_get_spec l c : extensions_ok l = true ->
  Extensions_get (extensions_text l) c =
  Ret (option_map extension_text (find (fun e => beq (e_singleton e) c) l)).
Proof.
  intros H. unfold Extensions_get.
  apply (get_loop_spec _ c (extensions_ascii l H) l []); auto; [|lia].
  destruct l; [cbn; lia|reflexivity].
Qed.

(** * 5. Language *)

Lemma split_once_join x l : dash_free x = true ->
  split_once (join (x :: l)) = match l with [] => None | _ => Some (x, join l) end.
Proof.
  intros H. rewrite join_cons. induction x as [|b x IH]; cbn [app].
  - destruct l as [|y l]; [reflexivity|]. rewrite dtail_join by discriminate. cbn [split_once]. rewrite beq_refl. reflexivity.
  - cbn [dash_free forallb] in H. rewrite andb_true_iff, negb_true_iff in H. destruct H as [Hb Hx].
    cbn [split_once]. rewrite Hb, (IH Hx). destruct l; reflexivity.
Qed.

Lemma language_parts l : language_ok l = true ->
  split_once (language_text l) = match l_extlangs l with [] => None | xs => Some (l_primary l, join xs) end.
Proof.
  intros H. apply segs_language in H. unfold language_text, language_subtags in *. cbn [forallb] in H.
  apply andb_true_iff in H as [H _]. rewrite split_once_join by (apply seg_dash_free, H). destruct (l_extlangs l); reflexivity.
Qed.

Lemma Language_primary_spec l : language_ok l = true -> Language_primary (language_text l) = l_primary l.
Proof.
  intros H. unfold Language_primary. rewrite language_parts by auto.
  unfold language_text, language_subtags. destruct (l_extlangs l); reflexivity.
Qed.

Lemma Language_extension_spec l : language_ok l = true ->
  Language_extension (language_text l) = match l_extlangs l with [] => None | xs => Some (join xs) end.
Proof.
  intros H. unfold Language_extension. rewrite language_parts by auto. destruct (l_extlangs l); reflexivity.
Qed.

Lemma language_extlangs l : language_ok l = true ->
  forallb extlang_tag_ok (l_extlangs l) = true /\ length (l_extlangs l) <= 3.
Proof.
  unfold language_ok. rewrite orb_true_iff, !andb_true_iff. intros [[[_ H1] H2]|[_ H]].
  - apply Nat.leb_le in H1. auto.
  - destruct (l_extlangs l); [cbn; split; [auto|lia]|discriminate].
Qed.

Lemma Language_extension_subtags_spec l : language_ok l = true ->
  at_segs (Language_extension_subtags (language_text l)) (l_extlangs l).
Proof.
  intros H. unfold Language_extension_subtags. rewrite Language_extension_spec by auto.
  apply language_extlangs in H as [H _].
  destruct (l_extlangs l) as [|x xs]; [apply iter_default_at|].
  apply at_segs_start. rewrite forallb_forall in *. auto using seg_extlang_tag.
Qed.
