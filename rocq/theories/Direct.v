(** The productions of the ABNF against the direct descriptions (lengths, character classes, components). *)
From Verif Require Import Base GrammarRs Validate Utils Grandfathered Normal LangTag Newtypes Derived Spec
  Observe RegexEquiv.
From Verif Require Import Utils Grandfathered Case.

(** * 1. Character classes and repetition *)

(** [r] matches exactly one byte satisfying [p]. *)
Definition char (r : re) (p : byte -> bool) : Prop :=
  forall s, matches r s <-> exists b, s = [b] /\ p b = true.

Lemma char_ALPHA : char ALPHA is_alpha.
Proof.
  intros s. unfold ALPHA. rewrite matches_Cls. unfold is_alpha, is_upper, is_lower, in_cls. cbn [existsb fst snd].
  split; intros (b & -> & H); exists b; split; auto; rewrite orb_false_r in *; auto.
Qed.

Lemma char_DIGIT : char DIGIT is_digit.
Proof.
  intros s. unfold DIGIT. rewrite matches_Cls. unfold is_digit, in_cls. cbn [existsb fst snd].
  split; intros (b & -> & H); exists b; split; auto; rewrite orb_false_r in *; auto.
Qed.

Lemma char_Alt r r' p p' : char r p -> char r' p' -> char (Alt r r') (fun b => p b || p' b).
Proof.
  intros H H' s. rewrite matches_Alt, (H s), (H' s). split.
  - intros [(b & -> & Hb)|(b & -> & Hb)]; exists b; rewrite Hb, ?orb_true_r; auto.
  - intros (b & -> & Hb). apply orb_true_iff in Hb as [Hb|Hb]; eauto.
Qed.

Lemma char_alphanum : char alphanum is_alnum.
Proof. exact (char_Alt _ _ _ _ char_ALPHA char_DIGIT). Qed.

Lemma matches_times r p (H : char r p) n : forall s,
  matches (times n r) s <-> length s = n /\ forallb p s = true.
Proof.
  induction n as [|n IH]; intros s; cbn [times].
  - rewrite matches_Eps. split; [intros ->; auto|]. intros [H1 _]. destruct s; [auto|discriminate].
  - rewrite matches_Cat. split.
    + intros (u & v & -> & H1 & H2). apply H in H1 as (b & -> & Hb). apply IH in H2 as [H2 H3].
      cbn. rewrite Hb. auto.
    + intros [H1 H2]. destruct s as [|b s]; [discriminate|]. cbn in H1, H2.
      apply andb_true_iff in H2 as [H2 H3]. exists [b], s. split; auto. split; [apply H; eauto|].
      apply IH. split; [lia|auto].
Qed.

Lemma matches_upto r p (H : char r p) n : forall s,
  matches (upto n r) s <-> length s <= n /\ forallb p s = true.
Proof.
  induction n as [|n IH]; intros s; cbn [upto].
  - rewrite matches_Eps. split; [intros ->; auto|]. intros [H1 _]. destruct s; [auto|simpl in H1; lia].
  - unfold opt. rewrite matches_Alt, matches_Eps, matches_Cat. split.
    + intros [(u & v & -> & H1 & H2)| ->]; [|cbn; split; [lia|auto]].
      apply H in H1 as (b & -> & Hb). apply IH in H2 as [H2 H3].
      cbn. rewrite Hb. split; [lia|auto].
    + intros [H1 H2]. destruct s as [|b s]; [auto|]. cbn in H1, H2. left.
      apply andb_true_iff in H2 as [H2 H3]. exists [b], s. split; auto. split; [apply H; eauto|].
      apply IH. split; [lia|auto].
Qed.

Lemma sized_spec lo hi p s : sized lo hi p s = true <-> lo <= length s <= hi /\ forallb p s = true.
Proof. unfold sized. rewrite !andb_true_iff, !Nat.leb_le. tauto. Qed.

Lemma matches_rep r p (H : char r p) lo hi s : lo <= hi ->
  (matches (rep lo hi r) s <-> sized lo hi p s = true).
Proof.
  intros Hle. unfold rep. rewrite matches_Cat, sized_spec. split.
  - intros (u & v & -> & H1 & H2). apply (matches_times _ _ H) in H1 as [H1 H3].
    apply (matches_upto _ _ H) in H2 as [H2 H4]. rewrite app_length, forallb_app, H3, H4.
    split; [lia|auto].
  - intros [H1 H2]. exists (firstn lo s), (skipn lo s). rewrite firstn_skipn. split; auto.
    rewrite <- (firstn_skipn lo s) in H2. rewrite forallb_app in H2. apply andb_true_iff in H2 as [H2 H3].
    split; [apply (matches_times _ _ H)|apply (matches_upto _ _ H)].
    + rewrite firstn_length. split; [lia|auto].
    + rewrite skipn_length. split; [lia|auto].
Qed.

Lemma matches_times_sized r p (H : char r p) n s : matches (times n r) s <-> sized n n p s = true.
Proof. rewrite (matches_times _ _ H), sized_spec. split; intros [H1 H2]; split; auto; lia. Qed.

(** * 2. Single subtags *)

Lemma matches_primary s : matches abnf_primary s <-> primary_ok s = true.
Proof. apply (matches_rep _ _ char_ALPHA); lia. Qed.
Lemma matches_extlang_tag s : matches abnf_extlang_tag s <-> extlang_tag_ok s = true.
Proof. apply (matches_times_sized _ _ char_ALPHA). Qed.
Lemma matches_script s : matches abnf_script s <-> script_ok s = true.
Proof. apply (matches_times_sized _ _ char_ALPHA). Qed.
Lemma matches_region s : matches abnf_region s <-> region_ok s = true.
Proof.
  unfold abnf_region, region_ok.
  rewrite matches_Alt, orb_true_iff, (matches_times_sized _ _ char_ALPHA), (matches_times_sized _ _ char_DIGIT).
  tauto.
Qed.
Lemma matches_extension_subtag s : matches abnf_extension_subtag s <-> ext_subtag_ok s = true.
Proof. apply (matches_rep _ _ char_alphanum); lia. Qed.
Lemma matches_privateuse_subtag s : matches abnf_privateuse_subtag s <-> pu_subtag_ok s = true.
Proof. apply (matches_rep _ _ char_alphanum); lia. Qed.
Lemma matches_variant s : matches abnf_variant s <-> variant_ok s = true.
Proof.
  unfold abnf_variant, variant_ok.
  rewrite matches_Alt, orb_true_iff, (matches_rep _ _ char_alphanum) by lia.
  rewrite matches_Cat, andb_true_iff, !sized_spec.
  split; (intros [H|H]; [left; exact H|right]).
  - destruct H as (u & v & -> & H1 & H2). apply char_DIGIT in H1 as (b & -> & Hb).
    apply (matches_times _ _ char_alphanum) in H2 as [H2 H3]. cbn [app length forallb]. rewrite Hb, H3.
    unfold is_alnum. rewrite Hb, orb_true_r. split; [split; [lia|]|]; reflexivity.
  - destruct H as [[H1 H2] H3]. destruct s as [|b s]; [discriminate|].
    cbn in H1, H2. apply andb_true_iff in H2 as [H2 H4].
    exists [b], s. split; auto. split; [apply char_DIGIT; eauto|].
    apply (matches_times _ _ char_alphanum). split; [lia|auto].
Qed.

Lemma byte_cases_singleton b : singleton_ok b = true <-> matches abnf_singleton [b].
Proof.
  unfold abnf_singleton. cbn [alts]. unfold DIGIT. rewrite !matches_Alt, !matches_Cls.
  assert (E : singleton_ok b = in_cls [(48,57);(65,87);(89,90);(97,119);(121,122)]%N (code b))
    by (destruct b; reflexivity).
  rewrite E. unfold in_cls. cbn [existsb fst snd]. rewrite !orb_true_iff. clear E.
  split.
  - intros [H|[H|[H|[H|[H|H]]]]]; try discriminate;
      repeat (first [left; exists b; split; [reflexivity|]; rewrite H; reflexivity | right]);
      exists b; split; [reflexivity|]; rewrite H; reflexivity.
  - intros [(x & E & H)|[(x & E & H)|[(x & E & H)|[(x & E & H)|(x & E & H)]]]]; injection E as <-;
      rewrite orb_false_r in H; rewrite H; tauto.
Qed.

Lemma matches_singleton s : matches abnf_singleton s <-> exists b, s = [b] /\ singleton_ok b = true.
Proof.
  split.
  - intros H. assert (exists b, s = [b]) as [b ->].
    { unfold abnf_singleton in H. cbn [alts] in H. unfold DIGIT in H.
      rewrite !matches_Alt, !matches_Cls in H.
      destruct H as [(x & E & _)|[(x & E & _)|[(x & E & _)|[(x & E & _)|(x & E & _)]]]]; eauto. }
    exists b. split; auto. apply byte_cases_singleton; auto.
  - intros (b & -> & H). apply byte_cases_singleton; auto.
Qed.

(** * 3. Lists of subtags *)

(** Each subtag preceded by '-'. *)
Definition dtail (l : list bytes) : bytes := flat_map (fun x => dash :: x) l.

Lemma join_cons x l : join (x :: l) = x ++ dtail l.
Proof.
  revert x. induction l as [|y l IH]; intros x.
  - cbn. rewrite app_nil_r. reflexivity.
  - change (join (x :: y :: l)) with (x ++ dash :: join (y :: l)). rewrite IH. reflexivity.
Qed.

Lemma dtail_app a b : dtail (a ++ b) = dtail a ++ dtail b.
Proof. apply flat_map_app. Qed.

Lemma dtail_join l : l <> [] -> dtail l = dash :: join l.
Proof. destruct l as [|x l]; [congruence|]. intros _. rewrite join_cons. reflexivity. Qed.

Lemma join_app a b : a <> [] -> join (a ++ b) = join a ++ dtail b.
Proof.
  destruct a as [|x a]; [congruence|]. intros _. cbn [app]. rewrite !join_cons, dtail_app, app_assoc. reflexivity.
Qed.

Lemma matches_hyphen s : matches hyphen s <-> s = [dash].
Proof.
  unfold hyphen. rewrite matches_lit. change (bs "-") with [dash]. split.
  - intros H. destruct s as [|b [|b' s]]; cbn in H; try discriminate.
    apply same_ci_cons in H as [H _]. apply (lower_dash b) in H. congruence.
  - intros ->. reflexivity.
Qed.

Lemma matches_hyphen_cat r s : matches (hyphen %% r) s <-> exists u, s = dash :: u /\ matches r u.
Proof.
  rewrite matches_Cat. split.
  - intros (u & v & -> & H1 & H2). apply matches_hyphen in H1 as ->. exists v; auto.
  - intros (u & -> & H). exists [dash], u. split; auto. split; auto. apply matches_hyphen; auto.
Qed.

Lemma matches_opt r s : matches (opt r) s <-> s = [] \/ matches r s.
Proof. unfold opt. rewrite matches_Alt, matches_Eps. tauto. Qed.

(** [Star (hyphen %% r)] where [r] is described by objects [x] with text [join (parts x)]. *)
Lemma matches_star_hyphen {X} (r : re) (ok : X -> bool) (parts : X -> list bytes)
  (Hne : forall x, ok x = true -> parts x <> [])
  (Hr : forall s, matches r s <-> exists x, ok x = true /\ s = join (parts x)) :
  forall s, matches (Star (hyphen %% r)) s <->
    exists l, forallb ok l = true /\ s = dtail (flat_map parts l).
Proof.
  assert (H1 : forall n s, length s <= n -> matches (Star (hyphen %% r)) s ->
            exists l, forallb ok l = true /\ s = dtail (flat_map parts l)).
  { induction n as [|n IH]; intros s Hn H; apply matches_Star_inv in H as [->|(b & u & v & -> & H1 & H2)];
      try (exists []; auto; fail).
    - simpl in Hn. lia.
    - apply IH in H2 as (l & Hl & ->); [|simpl in Hn; rewrite app_length in Hn; lia].
      apply matches_hyphen_cat in H1 as (u' & E & H1). apply Hr in H1 as (x & Hx & ->).
      exists (x :: l). cbn [forallb flat_map]. rewrite Hx, Hl. split; auto. rewrite dtail_app, E, (dtail_join (parts x)); auto. }
  intros s. split; [apply (H1 _ _ (Nat.le_refl _))|].
  intros (l & Hl & ->). induction l as [|x l IH]; cbn; [constructor|].
  cbn in Hl. apply andb_true_iff in Hl as [Hx Hl]. rewrite dtail_app. constructor; [|auto].
  apply matches_hyphen_cat. exists (join (parts x)). split; [apply dtail_join; auto|]. apply Hr. eauto.
Qed.

Lemma flat_map_single {X} (f : X -> bytes) (l : list X) : flat_map (fun x => [f x]) l = map f l.
Proof. induction l as [|x l IH]; cbn; congruence. Qed.

(** The same for single subtags. *)
Lemma matches_star_subtags (r : re) (ok : bytes -> bool) (Hr : forall s, matches r s <-> ok s = true) :
  forall s, matches (Star (hyphen %% r)) s <-> exists l, forallb ok l = true /\ s = dtail l.
Proof.
  intros s. rewrite (matches_star_hyphen r ok (fun x => [x])).
  - split; intros (l & Hl & ->); exists l; split; auto; rewrite flat_map_single, map_id; auto.
  - intros x _. discriminate.
  - intros u. rewrite Hr. split; [intros H; exists u; auto|]. intros (x & Hx & ->). auto.
Qed.

Lemma matches_plus_subtags (r : re) (ok : bytes -> bool) (Hr : forall s, matches r s <-> ok s = true) :
  forall s, matches (plus (hyphen %% r)) s <->
    exists l, (1 <=? length l) && forallb ok l = true /\ s = dtail l.
Proof.
  intros s. unfold plus. rewrite matches_Cat. split.
  - intros (u & v & -> & H1 & H2). apply matches_hyphen_cat in H1 as (x & -> & H1). apply Hr in H1.
    apply (matches_star_subtags r ok Hr) in H2 as (l & Hl & ->). exists (x :: l). cbn. rewrite H1, Hl. auto.
  - intros (l & Hl & ->). apply andb_true_iff in Hl as [H1 H2].
    destruct l as [|x l]; [discriminate|]. cbn in H2. apply andb_true_iff in H2 as [H2 H3].
    exists (dash :: x), (dtail l). split; auto. split.
    + apply matches_hyphen_cat. exists x. split; auto. apply Hr; auto.
    + apply (matches_star_subtags r ok Hr). eauto.
Qed.

(** * 4. Composite productions *)

Lemma matches_privateuse s : matches abnf_privateuse s <-> exists p, private_ok p = true /\ s = private_text p.
Proof.
  unfold abnf_privateuse. rewrite matches_Cat. split.
  - intros (u & v & -> & H1 & H2). apply matches_lit in H1.
    apply (matches_plus_subtags _ _ matches_privateuse_subtag) in H2 as (l & Hl & ->).
    change (bs "x") with ["x"%byte] in H1.
    destruct u as [|b [|b' u]]; try discriminate. apply same_ci_cons in H1 as [H1 _].
    exists (Priv b l). unfold private_ok, private_text, private_parts. cbn [p_x p_subtags].
    rewrite join_cons. split; auto. rewrite <- andb_assoc, Hl, andb_true_r.
    destruct b; try (vm_compute in H1; discriminate); reflexivity.
  - intros ([b l] & H & ->). unfold private_ok, private_text, private_parts in *. cbn [p_x p_subtags] in *.
    rewrite <- andb_assoc in H. apply andb_true_iff in H as [H1 H2]. rewrite join_cons.
    exists [b], (dtail l). split; auto. split.
    + apply matches_lit. apply same_ci_cons. split; [|reflexivity].
      apply orb_true_iff in H1 as [H1|H1]; apply beq_true in H1 as ->; reflexivity.
    + apply (matches_plus_subtags _ _ matches_privateuse_subtag). eauto.
Qed.

Lemma matches_extension s : matches abnf_extension s <-> exists e, extension_ok e = true /\ s = extension_text e.
Proof.
  unfold abnf_extension. rewrite matches_Cat. split.
  - intros (u & v & -> & H1 & H2). apply matches_singleton in H1 as (b & -> & Hb).
    apply (matches_plus_subtags _ _ matches_extension_subtag) in H2 as (l & Hl & ->).
    exists (Ext b l). unfold extension_ok, extension_text, extension_parts. cbn [e_singleton e_subtags].
    rewrite join_cons, <- andb_assoc, Hl, Hb. auto.
  - intros ([b l] & H & ->). unfold extension_ok, extension_text, extension_parts in *.
    cbn [e_singleton e_subtags] in *. rewrite <- andb_assoc in H. apply andb_true_iff in H as [H1 H2].
    rewrite join_cons. exists [b], (dtail l). split; auto. split.
    + apply matches_singleton; eauto.
    + apply (matches_plus_subtags _ _ matches_extension_subtag). eauto.
Qed.

Lemma matches_extension_star s : matches (Star (hyphen %% abnf_extension)) s <->
  exists l, extensions_ok l = true /\ s = dtail (flat_map extension_parts l).
Proof.
  apply (matches_star_hyphen abnf_extension extension_ok extension_parts).
  - intros x _. discriminate.
  - apply matches_extension.
Qed.

Lemma matches_extensions s : matches abnf_extensions s <->
  exists l, extensions_ok l = true /\ s = extensions_text l.
Proof.
  unfold abnf_extensions. rewrite matches_opt, matches_Cat. split.
  - intros [->|(u & v & -> & H1 & H2)]; [exists []; auto|].
    apply matches_extension in H1 as (e & He & ->). apply matches_extension_star in H2 as (l & Hl & ->).
    exists (e :: l). unfold extensions_ok in *. cbn [forallb]. rewrite He, Hl. split; auto.
    unfold extensions_text. cbn [flat_map]. rewrite join_app; [reflexivity|discriminate].
  - intros ([|e l] & H & ->); [auto|right].
    unfold extensions_ok in H. cbn in H. apply andb_true_iff in H as [H1 H2].
    exists (extension_text e), (dtail (flat_map extension_parts l)). split.
    + unfold extensions_text. cbn [flat_map]. rewrite join_app; [reflexivity|discriminate].
    + split; [apply matches_extension; eauto|apply matches_extension_star; eauto].
Qed.

Lemma matches_variants s : matches abnf_variants s <-> exists l, variants_ok l = true /\ s = join l.
Proof.
  unfold abnf_variants. rewrite matches_opt, matches_Cat. split.
  - intros [->|(u & v & -> & H1 & H2)]; [exists []; auto|].
    apply matches_variant in H1. apply (matches_star_subtags _ _ matches_variant) in H2 as (l & Hl & ->).
    exists (u :: l). unfold variants_ok in *. cbn [forallb]. rewrite H1, Hl, join_cons. auto.
  - intros ([|x l] & H & ->); [auto|right].
    unfold variants_ok in H. cbn in H. apply andb_true_iff in H as [H1 H2].
    exists x, (dtail l). rewrite join_cons. split; auto.
    split; [apply matches_variant; auto|apply (matches_star_subtags _ _ matches_variant); eauto].
Qed.

Lemma matches_upto_hyphen r ok (Hr : forall s, matches r s <-> ok s = true) n : forall s,
  matches (upto n (hyphen %% r)) s <-> exists l, length l <= n /\ forallb ok l = true /\ s = dtail l.
Proof.
  induction n as [|n IH]; intros s; cbn [upto].
  - rewrite matches_Eps. split; [intros ->; exists []; auto|].
    intros ([|x l] & H1 & _ & ->); [auto|simpl in H1; lia].
  - rewrite matches_opt, matches_Cat. split.
    + intros [->|(u & v & -> & H1 & H2)]; [exists []; cbn; repeat split; auto; lia|].
      apply matches_hyphen_cat in H1 as (x & -> & H1). apply Hr in H1. apply IH in H2 as (l & Hn & Hl & ->).
      exists (x :: l). cbn. rewrite H1, Hl. repeat split; auto; lia.
    + intros ([|x l] & Hn & Hl & ->); [auto|right].
      cbn in Hn, Hl. apply andb_true_iff in Hl as [H1 H2]. exists (dash :: x), (dtail l). split; auto. split.
      * apply matches_hyphen_cat. exists x. split; auto. apply Hr; auto.
      * apply IH. exists l. repeat split; auto; lia.
Qed.

Lemma matches_extlang s : matches abnf_extlang s <-> exists l, extlangs_ok l = true /\ s = join l.
Proof.
  unfold abnf_extlang, rep. cbn [times Nat.sub]. rewrite matches_Cat. split.
  - intros (u & v & -> & H1 & H2). apply matches_extlang_tag in H1.
    apply matches_Cat in H2 as (v0 & v1 & -> & H2 & H3). apply matches_Eps in H2 as ->.
    apply (matches_upto_hyphen _ _ matches_extlang_tag) in H3 as (l & Hn & Hl & ->).
    exists (u :: l). unfold extlangs_ok. cbn [length forallb]. rewrite join_cons, H1, Hl. cbn [andb app].
    split; auto. apply andb_true_iff; split; auto. apply Nat.leb_le. lia.
  - intros (l & H & ->). unfold extlangs_ok in H. apply andb_true_iff in H as [H H2].
    apply andb_true_iff in H as [H0 H1]. destruct l as [|x l]; [discriminate|]. rewrite join_cons.
    cbn in H2. apply andb_true_iff in H2 as [H2 H3]. apply Nat.leb_le in H1. cbn in H1.
    exists x, (dtail l). split; auto. split; [apply matches_extlang_tag; auto|].
    apply matches_Cat. exists [], (dtail l). split; auto. split; [constructor|].
    apply (matches_upto_hyphen _ _ matches_extlang_tag). exists l. repeat split; auto; lia.
Qed.

Lemma extlangs_ok_cons x l : extlangs_ok (x :: l) = (length (x :: l) <=? 3) && forallb extlang_tag_ok (x :: l).
Proof. reflexivity. Qed.

Lemma matches_language s : matches abnf_language s <-> exists l, language_ok l = true /\ s = language_text l.
Proof.
  unfold abnf_language. cbn [alts]. rewrite !matches_Alt, matches_Cat.
  rewrite (matches_times_sized _ _ char_ALPHA), (matches_rep _ _ char_ALPHA) by lia.
  split.
  - intros [(u & v & -> & H1 & H2)|H].
    + apply matches_primary in H1. apply matches_opt in H2 as [->|H2].
      * exists (Lang u []). unfold language_ok, language_text, language_subtags. cbn. rewrite H1, app_nil_r. auto.
      * apply matches_hyphen_cat in H2 as (w & -> & H2). apply matches_extlang in H2 as (l & Hl & ->).
        exists (Lang u l). unfold language_ok, language_text, language_subtags. cbn [l_primary l_extlangs].
        destruct l as [|x l]; [discriminate|]. rewrite extlangs_ok_cons in Hl.
        rewrite <- andb_assoc, Hl, H1, join_cons. cbn [dtail flat_map app]. rewrite join_cons. auto.
    + exists (Lang s []). unfold language_ok, language_text, language_subtags. cbn [l_primary l_extlangs].
      split; [|reflexivity]. apply orb_true_iff; right. rewrite andb_true_r.
      rewrite !sized_spec in *. destruct H as [[H1 H2]|[H1 H2]]; split; auto; lia.
  - intros ([u l] & H & ->). unfold language_ok, language_text, language_subtags in *.
    cbn [l_primary l_extlangs] in *. rewrite join_cons. apply orb_true_iff in H as [H|H].
    + rewrite <- andb_assoc in H. apply andb_true_iff in H as [H1 H2]. left.
      exists u, (dtail l). split; auto. split; [apply matches_primary; auto|]. apply matches_opt.
      destruct l as [|x l]; [auto|right]. apply matches_hyphen_cat. exists (join (x :: l)).
      split; [apply dtail_join; discriminate|]. apply matches_extlang. exists (x :: l).
      rewrite extlangs_ok_cons. auto.
    + apply andb_true_iff in H as [H1 H2]. destruct l; [|discriminate]. cbn. rewrite app_nil_r. right.
      rewrite !sized_spec in *. destruct H1 as [H1 H3].
      destruct (Nat.eq_dec (length u) 4); [left|right]; split; auto; lia.
Qed.

Lemma matches_opt_hyphen {X} r (ok : X -> bool) (parts : X -> list bytes)
  (Hne : forall x, ok x = true -> parts x <> [])
  (Hr : forall s, matches r s <-> exists x, ok x = true /\ s = join (parts x)) s :
  matches (opt (hyphen %% r)) s <-> exists o, opt_ok ok o = true /\ s = dtail (opt_parts parts o).
Proof.
  rewrite matches_opt, matches_hyphen_cat. split.
  - intros [->|(u & -> & H)]; [exists None; auto|]. apply Hr in H as (x & Hx & ->).
    exists (Some x). cbn. rewrite dtail_join; auto.
  - intros ([x|] & H & ->); cbn in *; [right|auto]. exists (join (parts x)).
    rewrite dtail_join by auto. split; auto. apply Hr. eauto.
Qed.

Lemma matches_opt_subtag r (ok : bytes -> bool) (Hr : forall s, matches r s <-> ok s = true) s :
  matches (opt (hyphen %% r)) s <-> exists o, opt_ok ok o = true /\ s = dtail (opt_list o).
Proof.
  rewrite (matches_opt_hyphen r ok (fun x => [x])).
  - split; intros ([x|] & H & ->); [exists (Some x)|exists None|exists (Some x)|exists None]; auto.
  - intros x _; discriminate.
  - intros u. rewrite Hr. split; [intros H; exists u; auto|]. intros (x & Hx & ->). auto.
Qed.

Lemma tag_text_split t : tag_text t =
  language_text (t_language t) ++ dtail (opt_list (t_script t)) ++ dtail (opt_list (t_region t)) ++
  dtail (t_variants t) ++ dtail (flat_map extension_parts (t_extensions t)) ++
  dtail (opt_parts private_parts (t_private t)).
Proof.
  unfold tag_text, tag_subtags. rewrite join_app by discriminate. rewrite !dtail_app. reflexivity.
Qed.

Theorem matches_langtag s : matches abnf_langtag s <-> exists t, is_tag s t.
Proof.
  unfold abnf_langtag, is_tag. rewrite !matches_Cat. split.
  - intros (s5 & sp & -> & H & Hp).
    apply matches_Cat in H as (s4 & se & -> & H & He).
    apply matches_Cat in H as (s3 & sv & -> & H & Hv).
    apply matches_Cat in H as (s2 & sr & -> & H & Hr).
    apply matches_Cat in H as (sl & sc & -> & Hl & Hc).
    apply matches_language in Hl as (l & Hl & ->).
    apply (matches_opt_subtag _ _ matches_script) in Hc as (c & Hc & ->).
    apply (matches_opt_subtag _ _ matches_region) in Hr as (r & Hr & ->).
    apply (matches_star_subtags _ _ matches_variant) in Hv as (v & Hv & ->).
    apply matches_extension_star in He as (e & He & ->).
    apply (matches_opt_hyphen abnf_privateuse private_ok private_parts) in Hp as (p & Hp & ->);
      [|intros x _; discriminate|apply matches_privateuse].
    exists (Tag l c r v e p). rewrite tag_text_split. cbn. rewrite !app_assoc. split; [|reflexivity].
    unfold tag_ok, variants_ok. cbn [t_language t_script t_region t_variants t_extensions t_private]. rewrite Hl, Hc, Hr, Hv, He, Hp. reflexivity.
  - intros (t & Ht & ->). rewrite tag_text_split, !app_assoc.
    unfold tag_ok in Ht. rewrite !andb_true_iff in Ht. destruct Ht as [[[[[Hl Hc] Hr] Hv] He] Hp].
    do 2 eexists. split; [reflexivity|]. split.
    2:{ apply (matches_opt_hyphen abnf_privateuse private_ok private_parts);
          [intros x _; discriminate|apply matches_privateuse|eauto]. }
    apply matches_Cat. do 2 eexists. split; [reflexivity|]. split.
    2:{ apply matches_extension_star. eauto. }
    apply matches_Cat. do 2 eexists. split; [reflexivity|]. split.
    2:{ apply (matches_star_subtags _ _ matches_variant). eauto. }
    apply matches_Cat. do 2 eexists. split; [reflexivity|]. split.
    2:{ apply (matches_opt_subtag _ _ matches_region). eauto. }
    apply matches_Cat. do 2 eexists. split; [reflexivity|]. split.
    2:{ apply (matches_opt_subtag _ _ matches_script). eauto. }
    apply matches_language. eauto.
Qed.
