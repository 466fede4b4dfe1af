(** Subtags of a text, and uniqueness of the decomposition of a normal tag into components. *)
From Verif Require Import Base GrammarRs Validate Utils Grandfathered Normal LangTag Newtypes Derived Spec
  Observe RegexEquiv Case Direct.

(** * 1. Subtags: 1 to 8 letters or digits *)

Definition seg_ok (x : bytes) : bool := sized 1 8 is_alnum x.

Lemma alpha_alnum b : is_alpha b = true -> is_alnum b = true.
Proof. unfold is_alnum. intros ->. reflexivity. Qed.
Lemma digit_alnum b : is_digit b = true -> is_alnum b = true.
Proof. unfold is_alnum. intros ->. apply orb_true_r. Qed.

Lemma alnum_dash b : is_alnum b = true -> b <> dash.
Proof. intros H ->. vm_compute in H. discriminate. Qed.

Lemma alnum_ascii b : is_alnum b = true -> (code b < 128)%N.
Proof.
  unfold is_alnum, is_alpha, is_upper, is_lower, is_digit.
  rewrite !orb_true_iff, !andb_true_iff, !N.leb_le. lia.
Qed.

Lemma sized_seg lo hi p x : 1 <= lo -> hi <= 8 -> (forall b, p b = true -> is_alnum b = true) ->
  sized lo hi p x = true -> seg_ok x = true.
Proof.
  unfold seg_ok. rewrite !sized_spec. intros H1 H2 Hp [H3 H4]. split; [lia|].
  rewrite forallb_forall in *. auto.
Qed.

Lemma seg_primary x : primary_ok x = true -> seg_ok x = true.
Proof. apply sized_seg; auto using alpha_alnum; lia. Qed.
Lemma seg_extlang_tag x : extlang_tag_ok x = true -> seg_ok x = true.
Proof. apply sized_seg; auto using alpha_alnum; lia. Qed.
Lemma seg_script x : script_ok x = true -> seg_ok x = true.
Proof. apply sized_seg; auto using alpha_alnum; lia. Qed.
Lemma seg_region x : region_ok x = true -> seg_ok x = true.
Proof.
  unfold region_ok. rewrite orb_true_iff. intros [H|H]; revert H; apply sized_seg;
    auto using alpha_alnum, digit_alnum; lia.
Qed.
Lemma seg_variant x : variant_ok x = true -> seg_ok x = true.
Proof.
  unfold variant_ok. rewrite orb_true_iff, andb_true_iff. intros [H|[H _]]; revert H; apply sized_seg; auto; lia.
Qed.
Lemma seg_ext_subtag x : ext_subtag_ok x = true -> seg_ok x = true.
Proof. apply sized_seg; auto; lia. Qed.
Lemma seg_pu_subtag x : pu_subtag_ok x = true -> seg_ok x = true.
Proof. apply sized_seg; auto; lia. Qed.
Lemma seg_singleton b : singleton_ok b = true -> seg_ok [b] = true.
Proof.
  unfold singleton_ok. rewrite !andb_true_iff. intros [[H _] _]. unfold seg_ok. rewrite sized_spec. cbn [length forallb].
  rewrite H. split; [lia|reflexivity].
Qed.
Lemma seg_x b : beq b "x"%byte || beq b "X"%byte = true -> seg_ok [b] = true.
Proof. rewrite orb_true_iff, !beq_true. intros [->| ->]; reflexivity. Qed.

Lemma segs_language l : language_ok l = true -> forallb seg_ok (language_subtags l) = true.
Proof.
  unfold language_ok, language_subtags. destruct l as [u l]. cbn [l_primary l_extlangs forallb].
  rewrite orb_true_iff, !andb_true_iff. intros [[[H1 _] H2]|[H1 H2]].
  - split; [apply seg_primary; auto|]. rewrite forallb_forall in *. auto using seg_extlang_tag.
  - destruct l; [|discriminate]. split; [|reflexivity]. revert H1. apply sized_seg; auto using alpha_alnum; lia.
Qed.

Lemma segs_extension e : extension_ok e = true -> forallb seg_ok (extension_parts e) = true.
Proof.
  unfold extension_ok, extension_parts. destruct e as [b l]. cbn [e_singleton e_subtags forallb].
  rewrite !andb_true_iff. intros [[H1 _] H2]. split; [apply seg_singleton; auto|].
  rewrite forallb_forall in *. auto using seg_ext_subtag.
Qed.

Lemma segs_extensions l : extensions_ok l = true -> forallb seg_ok (flat_map extension_parts l) = true.
Proof.
  unfold extensions_ok. induction l as [|e l IH]; [auto|]. cbn [forallb flat_map]. rewrite andb_true_iff.
  intros [H1 H2]. rewrite forallb_app, segs_extension, IH; auto.
Qed.

Lemma segs_private p : private_ok p = true -> forallb seg_ok (private_parts p) = true.
Proof.
  unfold private_ok, private_parts. destruct p as [b l]. cbn [p_x p_subtags forallb].
  rewrite !andb_true_iff. intros [[H1 _] H2]. split; [apply seg_x; auto|].
  rewrite forallb_forall in *. auto using seg_pu_subtag.
Qed.

Lemma segs_variants l : variants_ok l = true -> forallb seg_ok l = true.
Proof. unfold variants_ok. rewrite !forallb_forall. auto using seg_variant. Qed.

Lemma segs_extlangs l : extlangs_ok l = true -> forallb seg_ok l = true.
Proof.
  unfold extlangs_ok. rewrite !andb_true_iff. intros [_ H]. rewrite forallb_forall in *.
  auto using seg_extlang_tag.
Qed.

Lemma tag_ok_parts t : tag_ok t = true <->
  language_ok (t_language t) = true /\ opt_ok script_ok (t_script t) = true /\
  opt_ok region_ok (t_region t) = true /\ variants_ok (t_variants t) = true /\
  extensions_ok (t_extensions t) = true /\ opt_ok private_ok (t_private t) = true.
Proof. unfold tag_ok. rewrite !andb_true_iff. tauto. Qed.

Lemma segs_opt ok (H : forall x, ok x = true -> seg_ok x = true) o :
  opt_ok ok o = true -> forallb seg_ok (opt_list o) = true.
Proof. destruct o; cbn; auto. intros Ho. rewrite H; auto. Qed.

Lemma segs_tag t : tag_ok t = true -> forallb seg_ok (tag_subtags t) = true.
Proof.
  intros H. apply tag_ok_parts in H as (Hl & Hc & Hr & Hv & He & Hp). unfold tag_subtags.
  rewrite !forallb_app, !andb_true_iff.
  split; [apply segs_language; auto|].
  split; [apply (segs_opt script_ok); auto using seg_script|].
  split; [apply (segs_opt region_ok); auto using seg_region|].
  split; [apply segs_variants; auto|].
  split; [apply segs_extensions; auto|].
  destruct (t_private t); [|reflexivity]. apply segs_private; auto.
Qed.

(** * 2. Splitting at '-' *)

Fixpoint split (s : bytes) : list bytes :=
  match s with
  | [] => [[]]
  | b :: s' =>
    if beq b dash then [] :: split s'
    else match split s' with
         | [] => [[b]]
         | x :: l => (b :: x) :: l
         end
  end.

Definition dash_free (x : bytes) : bool := forallb (fun b => negb (beq b dash)) x.

Lemma seg_dash_free x : seg_ok x = true -> dash_free x = true.
Proof.
  unfold seg_ok, dash_free. rewrite sized_spec. intros [_ H]. rewrite forallb_forall in *.
  intros b Hb. apply negb_true_iff, beq_false, alnum_dash; auto.
Qed.

Lemma segs_dash_free l : forallb seg_ok l = true -> forallb dash_free l = true.
Proof. rewrite !forallb_forall. auto using seg_dash_free. Qed.

Lemma split_not_nil s : split s <> [].
Proof. destruct s as [|b s]; cbn; [discriminate|]. destruct (beq b dash); [discriminate|]. destruct (split s); discriminate. Qed.

Lemma split_app x s : dash_free x = true ->
  split (x ++ s) = match split s with [] => [x] | y :: l => (x ++ y) :: l end.
Proof.
  induction x as [|b x IH]; cbn [app split dash_free forallb].
  - intros _. pose proof (split_not_nil s). destruct (split s); [congruence|reflexivity].
  - rewrite andb_true_iff, negb_true_iff. intros [-> H]. rewrite (IH H).
    pose proof (split_not_nil s). destruct (split s); [congruence|reflexivity].
Qed.

Lemma split_join l : l <> [] -> forallb dash_free l = true -> split (join l) = l.
Proof.
  destruct l as [|x l]; [congruence|]. intros _. rewrite join_cons.
  revert x. induction l as [|y l IH]; intros x; cbn [forallb]; rewrite andb_true_iff; intros [Hx Hl].
  - cbn. rewrite split_app by auto. cbn. rewrite app_nil_r. reflexivity.
  - rewrite split_app by auto. change (dtail (y :: l)) with (dash :: (y ++ dtail l)). cbn [split]. rewrite beq_refl.
    rewrite (IH y) by auto. rewrite app_nil_r. reflexivity.
Qed.

Lemma join_inj l l' : l <> [] -> l' <> [] -> forallb dash_free l = true -> forallb dash_free l' = true ->
  join l = join l' -> l = l'.
Proof. intros H1 H2 H3 H4 E. rewrite <- (split_join l), <- (split_join l'); congruence. Qed.

Lemma tag_subtags_nil t : tag_subtags t <> [].
Proof. discriminate. Qed.

Lemma tag_text_inj t t' : tag_ok t = true -> tag_ok t' = true -> tag_text t = tag_text t' ->
  tag_subtags t = tag_subtags t'.
Proof.
  intros H H' E. apply join_inj; auto using tag_subtags_nil, segs_dash_free, segs_tag.
Qed.

(** * 3. Recovering the components from the list of subtags *)

Fixpoint take_while {A} (p : A -> bool) (l : list A) : list A :=
  match l with
  | [] => []
  | x :: l' => if p x then x :: take_while p l' else []
  end.
Fixpoint drop_while {A} (p : A -> bool) (l : list A) : list A :=
  match l with
  | [] => []
  | x :: l' => if p x then drop_while p l' else l
  end.

(** The first element, if any, does not satisfy [p]. *)
Definition stops {A} (p : A -> bool) (l : list A) : Prop :=
  match l with x :: _ => p x = false | [] => True end.

Lemma take_while_app {A} (p : A -> bool) a b : forallb p a = true -> stops p b ->
  take_while p (a ++ b) = a.
Proof.
  intros Ha Hb. induction a as [|x a IH]; cbn in *.
  - destruct b as [|y b]; cbn in *; [auto|]. rewrite Hb. auto.
  - apply andb_true_iff in Ha as [H1 H2]. rewrite H1, IH; auto.
Qed.
Lemma drop_while_app {A} (p : A -> bool) a b : forallb p a = true -> stops p b ->
  drop_while p (a ++ b) = b.
Proof.
  intros Ha Hb. induction a as [|x a IH]; cbn in *.
  - destruct b as [|y b]; cbn in *; [auto|]. rewrite Hb. auto.
  - apply andb_true_iff in Ha as [H1 H2]. rewrite H1, IH; auto.
Qed.

Definition take_one (p : bytes -> bool) (l : list bytes) : option bytes * list bytes :=
  match l with
  | x :: l' => if p x then (Some x, l') else (None, l)
  | [] => (None, [])
  end.

Lemma take_one_app p o l : opt_ok p o = true -> stops p l -> take_one p (opt_list o ++ l) = (o, l).
Proof.
  destruct o as [x|]; cbn.
  - intros -> _. reflexivity.
  - intros _ H. destruct l; cbn in *; [reflexivity|]. rewrite H. reflexivity.
Qed.

Definition is_x (s : bytes) : bool :=
  match s with [b] => beq b "x"%byte || beq b "X"%byte | _ => false end.
Definition long (s : bytes) : bool := 1 <? length s.

(** Groups subtags into extensions: each one-byte subtag starts a new one. *)
Fixpoint group (l : list bytes) : list extension :=
  match l with
  | [] => []
  | [b] :: l' => Ext b (take_while long l') :: group l'
  | _ :: l' => group l'
  end.

Definition parse_private (l : list bytes) : option private :=
  match l with
  | [b] :: l' => Some (Priv b l')
  | _ => None
  end.

Definition parse (l : list bytes) : tag :=
  match l with
  | [] => Tag (Lang [] []) None None [] [] None
  | u :: l0 =>
    let extl := take_while extlang_tag_ok l0 in
    let l1 := drop_while extlang_tag_ok l0 in
    let (c, l2) := take_one script_ok l1 in
    let (r, l3) := take_one region_ok l2 in
    let v := take_while variant_ok l3 in
    let l4 := drop_while variant_ok l3 in
    let e := take_while (fun x => negb (is_x x)) l4 in
    let l5 := drop_while (fun x => negb (is_x x)) l4 in
    Tag (Lang u extl) c r v (group e) (parse_private l5)
  end.

(** Tails of a tag: what may follow each component. *)
Definition after_extensions (t : tag) : list bytes := opt_parts private_parts (t_private t).
Definition after_variants (t : tag) : list bytes := flat_map extension_parts (t_extensions t) ++ after_extensions t.
Definition after_region (t : tag) : list bytes := t_variants t ++ after_variants t.
Definition after_script (t : tag) : list bytes := opt_list (t_region t) ++ after_region t.
Definition after_language (t : tag) : list bytes := opt_list (t_script t) ++ after_script t.

Lemma tag_subtags_language t : tag_subtags t = language_subtags (t_language t) ++ after_language t.
Proof. unfold tag_subtags, after_language, after_script, after_region, after_variants, after_extensions. reflexivity. Qed.

Lemma sized_length lo hi p x : length x < lo \/ hi < length x -> sized lo hi p x = false.
Proof.
  intros H. destruct (sized lo hi p x) eqn:E; [|reflexivity]. apply sized_spec in E. lia.
Qed.

(** Every length-based predicate fails on a one-byte subtag. *)
Lemma one_byte b : extlang_tag_ok [b] = false /\ script_ok [b] = false /\ region_ok [b] = false /\
  variant_ok [b] = false /\ ext_subtag_ok [b] = false.
Proof.
  unfold extlang_tag_ok, script_ok, region_ok, variant_ok, ext_subtag_ok.
  rewrite !sized_length by (cbn; lia). auto.
Qed.

Lemma sized_fail lo hi p q x : sized lo hi p x = true -> 1 <= lo ->
  (forall b, p b = true -> q b = false) -> forall lo' hi', sized lo' hi' q x = false.
Proof.
  intros H Hlo Hpq lo' hi'. apply sized_spec in H as [H1 H2].
  destruct (sized lo' hi' q x) eqn:E; [|reflexivity]. apply sized_spec in E as [_ E].
  destruct x as [|b x]; [cbn in H1; lia|]. cbn in H2, E. apply andb_true_iff in H2 as [H2 _].
  apply andb_true_iff in E as [E _]. rewrite (Hpq _ H2) in E. discriminate.
Qed.

Lemma digit_not_alpha b : is_digit b = true -> is_alpha b = false.
Proof.
  unfold is_digit, is_alpha, is_upper, is_lower. rewrite andb_true_iff, !N.leb_le. intros H.
  apply orb_false_iff. split; apply andb_false_iff; left; apply N.leb_gt; lia.
Qed.
Lemma alpha_not_digit b : is_alpha b = true -> is_digit b = false.
Proof. intros H. destruct (is_digit b) eqn:E; [|reflexivity]. apply digit_not_alpha in E. congruence. Qed.

Lemma extlang_not_others x : extlang_tag_ok x = true -> script_ok x = false /\ region_ok x = false.
Proof.
  intros H. pose proof H as H'. unfold extlang_tag_ok in H'. apply sized_spec in H' as [H1 _].
  unfold script_ok, region_ok. rewrite !(sized_length _ _ is_alpha) by lia.
  rewrite (sized_fail _ _ _ is_digit _ H); auto using alpha_not_digit; lia.
Qed.

Lemma script_stops x : script_ok x = true ->
  extlang_tag_ok x = false /\ region_ok x = false /\ variant_ok x = false.
Proof.
  intros H. pose proof H as H'. unfold script_ok in H'. apply sized_spec in H' as [H1 H2].
  unfold extlang_tag_ok, region_ok, variant_ok. rewrite !(sized_length _ _ is_alpha) by lia.
  rewrite (sized_length _ _ is_digit) by lia. rewrite (sized_length 5) by lia.
  repeat split; auto. cbn [orb]. apply andb_false_iff. right. destruct x as [|b x]; [reflexivity|].
  cbn in H2. apply andb_true_iff in H2 as [H2 _]. apply alpha_not_digit; auto.
Qed.

Lemma region_length x : region_ok x = true -> length x = 2 \/ length x = 3.
Proof. unfold region_ok. rewrite orb_true_iff, !sized_spec. lia. Qed.

Lemma region_stops x : region_ok x = true ->
  extlang_tag_ok x = false /\ script_ok x = false /\ variant_ok x = false.
Proof.
  intros H. pose proof (region_length _ H) as HL.
  assert (E : extlang_tag_ok x = false).
  { destruct (extlang_tag_ok x) eqn:E; [|reflexivity]. apply extlang_not_others in E. destruct E; congruence. }
  unfold script_ok, variant_ok. rewrite (sized_length 4 4 is_alpha), (sized_length 5), (sized_length 4) by lia.
  auto.
Qed.

Lemma variant_length x : variant_ok x = true -> 4 <= length x <= 8.
Proof. unfold variant_ok. rewrite orb_true_iff, andb_true_iff, !sized_spec. lia. Qed.

Lemma variant_stops x : variant_ok x = true ->
  extlang_tag_ok x = false /\ script_ok x = false /\ region_ok x = false /\ is_x x = false.
Proof.
  intros H. pose proof (variant_length _ H) as HL. repeat split.
  - apply sized_length; lia.
  - destruct (script_ok x) eqn:E; [|reflexivity]. apply script_stops in E. destruct E as (_ & _ & E). congruence.
  - unfold region_ok. rewrite !sized_length by lia. reflexivity.
  - destruct x as [|b [|]]; cbn in *; auto; lia.
Qed.

Lemma singleton_not_x b : singleton_ok b = true -> is_x [b] = false.
Proof.
  unfold singleton_ok, is_x. rewrite !andb_true_iff, !negb_true_iff. intros [[_ ->] ->]. reflexivity.
Qed.

(** ** What follows each component stops the scan for it *)

Definition one_byte_head (l : list bytes) : Prop := match l with x :: _ => length x = 1 | [] => True end.

Lemma after_extensions_head t : one_byte_head (after_extensions t).
Proof. unfold after_extensions. destruct (t_private t); cbn; auto. Qed.
Lemma after_variants_head t : one_byte_head (after_variants t).
Proof.
  unfold after_variants. destruct (t_extensions t); cbn; auto. apply after_extensions_head.
Qed.

Lemma one_byte_head_stops p l : (forall b, p [b] = false) -> one_byte_head l -> stops p l.
Proof. intros H. destruct l as [|[|b [|]] l]; cbn; try lia; auto. Qed.

Lemma stop_variants t : stops variant_ok (after_variants t).
Proof. apply one_byte_head_stops; [apply one_byte|apply after_variants_head]. Qed.

Lemma stops_app {A} (p : A -> bool) a b : stops p a -> stops p b -> stops p (a ++ b).
Proof. destruct a; cbn; auto. Qed.

Lemma stop_region t : tag_ok t = true -> stops region_ok (after_region t).
Proof.
  intros H. apply tag_ok_parts in H as (_ & _ & _ & Hv & _). apply stops_app.
  - destruct (t_variants t) as [|x l]; cbn in *; auto. apply andb_true_iff in Hv as [Hv _]. apply variant_stops; auto.
  - apply one_byte_head_stops; [apply one_byte|apply after_variants_head].
Qed.

Lemma stop_script t : tag_ok t = true -> stops script_ok (after_script t).
Proof.
  intros H. apply tag_ok_parts in H as (_ & _ & Hr & Hv & _). apply stops_app; [|apply stops_app].
  - destruct (t_region t); cbn in *; auto. apply region_stops; auto.
  - destruct (t_variants t) as [|x l]; cbn in *; auto. apply andb_true_iff in Hv as [Hv _]. apply variant_stops; auto.
  - apply one_byte_head_stops; [apply one_byte|apply after_variants_head].
Qed.

Lemma stop_extlang t : tag_ok t = true -> stops extlang_tag_ok (after_language t).
Proof.
  intros H. apply tag_ok_parts in H as (_ & Hc & Hr & Hv & _). apply stops_app; [|apply stops_app; [|apply stops_app]].
  - destruct (t_script t); cbn in *; auto. apply script_stops; auto.
  - destruct (t_region t); cbn in *; auto. apply region_stops; auto.
  - destruct (t_variants t) as [|x l]; cbn in *; auto. apply andb_true_iff in Hv as [Hv _]. apply variant_stops; auto.
  - apply one_byte_head_stops; [apply one_byte|apply after_variants_head].
Qed.

Lemma stop_extensions t : tag_ok t = true -> stops (fun x => negb (is_x x)) (after_extensions t).
Proof.
  intros H. apply tag_ok_parts in H as (_ & _ & _ & _ & _ & Hp). unfold after_extensions.
  destruct (t_private t) as [[b l]|]; cbn in *; auto. unfold private_ok in Hp. cbn in Hp.
  rewrite <- andb_assoc in Hp. apply andb_true_iff in Hp as [Hp _]. rewrite Hp. reflexivity.
Qed.

Lemma ext_subtag_long x : ext_subtag_ok x = true -> long x = true.
Proof. unfold ext_subtag_ok, long. rewrite sized_spec. intros [H _]. apply Nat.ltb_lt. lia. Qed.

Lemma long_not_x x : long x = true -> is_x x = false.
Proof. unfold long. destruct x as [|b [|]]; cbn; try discriminate; auto. Qed.

Lemma extensions_not_x l : extensions_ok l = true ->
  forallb (fun x => negb (is_x x)) (flat_map extension_parts l) = true.
Proof.
  unfold extensions_ok. induction l as [|[b l0] l IH]; [auto|]. cbn [forallb flat_map].
  rewrite andb_true_iff. intros [H1 H2]. rewrite forallb_app, IH by auto.
  unfold extension_ok in H1. cbn [e_singleton e_subtags] in H1. rewrite !andb_true_iff in H1.
  destruct H1 as [[H1 _] H3]. unfold extension_parts. cbn [e_singleton e_subtags forallb].
  rewrite singleton_not_x by auto. rewrite andb_true_r. cbn [negb andb].
  rewrite forallb_forall in *. intros x Hx. rewrite long_not_x; auto using ext_subtag_long.
Qed.

Lemma group_long l l' : forallb long l = true -> group (l ++ l') = group l'.
Proof.
  induction l as [|x l IH]; [auto|]. cbn [forallb app]. rewrite andb_true_iff. intros [Hx H].
  destruct x as [|b [|]]; try discriminate. cbn [group]. auto.
Qed.

Lemma group_extensions l : extensions_ok l = true -> group (flat_map extension_parts l) = l.
Proof.
  unfold extensions_ok. induction l as [|[b l0] l IH]; [auto|]. cbn [forallb flat_map].
  rewrite andb_true_iff. intros [H1 H2]. unfold extension_ok in H1. cbn [e_singleton e_subtags] in H1.
  rewrite !andb_true_iff in H1. destruct H1 as [[H1 _] H3].
  unfold extension_parts at 1. cbn [e_singleton e_subtags app group].
  assert (HL : forallb long l0 = true) by (rewrite forallb_forall in *; auto using ext_subtag_long).
  rewrite group_long by auto. rewrite IH by auto. rewrite take_while_app; auto.
  destruct l as [|[b' l'] l]; cbn; auto.
Qed.

Theorem parse_subtags t : tag_ok t = true -> parse (tag_subtags t) = t.
Proof.
  intros H. pose proof (tag_ok_parts t) as [HP _]. specialize (HP H). destruct HP as (Hl & Hc & Hr & Hv & He & Hp).
  rewrite tag_subtags_language. unfold language_subtags. destruct t as [[u xl] c r v e p].
  cbn [t_language l_primary l_extlangs app parse].
  set (t := Tag (Lang u xl) c r v e p) in *. cbn [t_language t_script t_region t_variants t_extensions t_private] in *.
  assert (Hxl : forallb extlang_tag_ok xl = true).
  { unfold language_ok in Hl. cbn in Hl. apply orb_true_iff in Hl. rewrite !andb_true_iff in Hl.
    destruct Hl as [[_ Hl]|[_ Hl]]; [exact Hl|]. destruct xl; [reflexivity|discriminate]. }
  rewrite take_while_app, drop_while_app by auto using stop_extlang.
  unfold after_language. rewrite take_one_app by auto using stop_script.
  unfold after_script. rewrite take_one_app by auto using stop_region.
  unfold after_region. rewrite take_while_app, drop_while_app by auto using stop_variants.
  unfold after_variants.
  rewrite take_while_app, drop_while_app by auto using stop_extensions, extensions_not_x.
  unfold t. cbn [t_extensions]. rewrite group_extensions by auto. unfold after_extensions. cbn.
  destruct p as [[b l]|]; reflexivity.
Qed.

Theorem tag_unique t t' : tag_ok t = true -> tag_ok t' = true -> tag_text t = tag_text t' -> t = t'.
Proof.
  intros H H' E. apply (tag_text_inj t t' H H') in E.
  rewrite <- (parse_subtags t H), <- (parse_subtags t' H'). congruence.
Qed.
