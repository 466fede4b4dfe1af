(** C73: what a program that uses the crate can do with it, whatever it calls and in whatever order. *)
From Verif Require Import Base GrammarRs Validate Utils Grandfathered Normal LangTag Newtypes Derived Spec Observe
  Grammar Direct Accept Case Parse Scan Access Iter Kind Parts Compose Values Order More Abnf AbnfText AbnfEquiv Samples PropsFile PropsAccess.
From Verif Require Import RustText RustSyntax RustEval RustProgram RustRefine RustGrammar RustValidate RustNormal RustAccess
  RustTags RustLib RustSays RustClient RustMended RustMendedAccess PropsSource PropsMended RustClientSound.
Import Base.
Open Scope string_scope.
Open Scope nat_scope.
Open Scope list_scope.

(** * 1. The source text as it is *)

(** The texts of [PrivateUse] values. *)
Definition private_texts (s : bytes) : Prop :=
  accepted PrivateUseT s \/ exists w t, is_tag w t /\ t_extensions t <> [] /\ s = join (rest_subtags t).
Lemma private_texts_accepted s : accepted PrivateUseT s -> private_texts s.
Proof. now left. Qed.
Lemma accepted_private_form s : accepted PrivateUseT s -> exists b l, s = join ([b] :: l) /\ forallb seg_ok ([b] :: l) = true.
Proof.
  intros A. apply accepted_private in A as ([b l] & O & ->). exists b, l. split; [reflexivity|].
  unfold private_ok in O. cbn [p_x p_subtags] in O. apply andb_prop in O as [O O3]. apply andb_prop in O as [O1 O2].
  cbn [forallb]. apply andb_true_iff. split; [|exact O3]. destruct b; try discriminate O1; reflexivity.
Qed.
Lemma rest_form t : tag_ok t = true -> ends_by_variants t = false -> exists b l, rest_subtags t = [b] :: l.
Proof.
  intros O E. unfold ends_by_variants in E. unfold rest_subtags. destruct (t_extensions t) as [|[b l] es].
  - destruct (t_private t) as [[b l]|]; [|discriminate E]. eexists b, l. reflexivity.
  - eexists b, _. reflexivity.
Qed.
Lemma private_texts_form s : private_texts s -> exists b l, s = join ([b] :: l) /\ forallb seg_ok ([b] :: l) = true.
Proof.
  intros [A|(w & t & [O _] & N & ->)]; [now apply accepted_private_form|].
  destruct (rest_form t O) as (b & l & E); [unfold ends_by_variants; now destruct (t_extensions t)|].
  exists b, l. rewrite <- E. split; [reflexivity|now apply rest_segs].
Qed.
Notation sound0 := (sound private_texts).
Lemma private_sound s t : is_tag s t -> ends_by_variants t = false -> private_texts (join (rest_subtags t)).
Proof.
  intros T E. destruct (t_extensions t) as [|e es] eqn:X; [left|right].
  - apply accepted_private. destruct T as [O _]. apply tag_ok_parts in O as (_ & _ & _ & _ & _ & O).
    unfold ends_by_variants in E. rewrite X in E. unfold rest_subtags. rewrite X. destruct (t_private t) as [p|]; [|discriminate E].
    exists p. split; [exact O|reflexivity].
  - exists s, t. rewrite X. split; [exact T|]. split; [discriminate|reflexivity].
Qed.
Lemma private_use_sound s t m : is_tag s t -> (m = "private_use" \/ m = "private_use_subtags") ->
  ends_before m t = ends_by_region t.
Proof. now intros _ [-> | ->]. Qed.
Lemma subtags_it s t : is_tag s t -> exists it, at_segs it (tl (rest_subtags t)) /\
  NormalLangTag_private_use_subtags s = if ends_by_region t then Panic else Ret it.
Proof.
  intros T. unfold NormalLangTag_private_use_subtags. rewrite (private_use_exact s t T).
  destruct (ends_by_variants t) eqn:E.
  - exists iter_default. split.
    + unfold ends_by_variants in E. apply andb_prop in E as [E1 E2]. unfold rest_subtags.
      destruct (t_extensions t); [|discriminate E1]. destruct (t_private t); [discriminate E2|]. exact iter_default_at.
    + destruct (ends_by_region t); reflexivity.
  - exists (PrivateUse_iter (join (rest_subtags t))). split; [|destruct (ends_by_region t); reflexivity].
    destruct T as [O _]. destruct (rest_form t O E) as (b & l & X). pose proof (rest_segs t O) as Y. rewrite X in *.
    now apply at_segs_after.
Qed.
Lemma says_private f args r : says f args r -> about_private f -> hidden_path f = false -> Forall sound0 args ->
  fine private_texts r \/ (r = Panic /\ panics f args).
Proof.
  intros H A N S. destruct A as [-> | [-> | [-> | [-> | ->]]]]; try discriminate N; inversion H; subst;
    try match goal with X : _ = type_of ?ty |- _ => destruct ty; discriminate X end;
    try match goal with X : _ = grammar_type ?ty |- _ => destruct ty; discriminate X end;
    inversion S as [|? ? G _]; subst; apply tag_sound in G.
  - apply normal_tag in G as (t & T). eapply (short _ NormalLangTagT); [now right|exact T|reflexivity|apply private_use_exact, T|].
    intros _. apply sound_option. intros a X. destruct (ends_by_variants t) eqn:E; [discriminate X|]. injection X as <-.
    apply sound_tag. now apply (private_sound s t).
  - apply normal_tag in G as (t & T). destruct (subtags_it s t T) as (it & At & E).
    eapply (short _ NormalLangTagT); [now right|exact T|reflexivity|exact E|]. intros _. now apply (iter_private _ _ _ At).
  - destruct (tag_or_not _ s G) as [(t & T)|T].
    + destruct (LangTag_normal s t T) as (_ & _ & _ & _ & _ & L & _).
      eapply (short _ LangTagT); [now left|exact T|reflexivity|rewrite L; apply private_use_exact, T|].
      intros _. apply sound_option. intros a X. destruct (ends_by_variants t) eqn:E; [discriminate X|]. injection X as <-.
      apply sound_tag. now apply (private_sound s t).
    + left. destruct (LangTag_not_normal s T) as (_ & _ & _ & _ & _ & L & _). apply (fine_lift _ _ _ _ L). apply sound_option. discriminate.
  - destruct (tag_or_not _ s G) as [(t & T)|T].
    + destruct (LangTag_normal s t T) as (_ & _ & _ & _ & _ & _ & L). destruct (subtags_it s t T) as (it & At & E).
      eapply (short _ LangTagT); [now left|exact T|reflexivity|rewrite L; exact E|]. intros _. now apply (iter_private _ _ _ At).
    + left. destruct (LangTag_not_normal s T) as (_ & _ & _ & _ & _ & L & _). unfold LangTag_private_use_subtags. rewrite L.
      eapply fine_lift; [reflexivity|]. apply sound_default. cbn. tauto.
Qed.
Lemma about_private_dec f : about_private f \/ ~ about_private f.
Proof.
  assert (D : forall x y : list string, x = y \/ x <> y) by (intros x y; destruct (list_eq_dec string_dec x y); auto).
  unfold about_private. destruct (D f ["NormalLangTag"; "private_use_offset"]), (D f ["NormalLangTag"; "private_use"]),
    (D f ["NormalLangTag"; "private_use_subtags"]), (D f ["LangTag"; "private_use"]), (D f ["LangTag"; "private_use_subtags"]); tauto.
Qed.
Lemma call_sound f tys args : offered crate f tys -> Forall2 (has_type crate) tys args -> Forall sound0 args ->
  exists r, says f args r /\ (fine private_texts r \/ (r = Panic /\ panics f args)).
Proof.
  intros O T S. destruct (typed_says f tys args O T) as (r & H).
  - intros b B. apply singleton_alphanumeric. apply (singleton_sound private_texts). exact (proj1 (Forall_forall _ _) S _ B).
  - exists r. split; [exact H|]. apply offered_not_hidden in O. destruct (about_private_dec f) as [A|A]; [now apply says_private|].
    apply says_sound; auto using private_texts_accepted, private_texts_form.
Qed.
Lemma reached_sound v : reached crate runs v -> sound0 v.
Proof.
  intros H. induction H as [s U|s|b|c|l|x cs c I J|c v T R IH|f tys args v outs O T R IH C|f tys args v outs w O T R IH C W|v w R IH P].
  - now apply sound_str.
  - apply sound_bytes.
  - apply sound_byte.
  - apply sound_char.
  - apply sound_sink.
  - apply sound_enum, Forall_nil.
  - apply sound_enum. auto.
  - destruct (call_sound f tys args O T) as (r & Y & F); [now apply Forall_forall|].
    apply says_runs in Y. pose proof (runs_unique _ _ _ _ Y C) as ->.
    destruct F as [(v' & outs' & E & S & _)|[E _]]; [|discriminate E]. now injection E as <- <-.
  - destruct (call_sound f tys args O T) as (r & Y & F); [now apply Forall_forall|].
    apply says_runs in Y. pose proof (runs_unique _ _ _ _ Y C) as ->.
    destruct F as [(v' & outs' & E & _ & S)|[E _]]; [|discriminate E]. injection E as <- <-. exact (proj1 (Forall_forall _ _) S _ W).
  - eapply sound_part; eassumption.
Qed.

(** * 2. The patched text of C72 *)

Notation sound1 := (sound (accepted PrivateUseT)).
Lemma runs_mended_unique f args r r' : runs_mended f args r -> runs_mended f args r' -> r = r'.
Proof.
  intros H H'. destruct (mended_inv _ _ _ H (64 + rooms args) ltac:(lia) ltac:(lia)) as (N & X).
  destruct (mended_inv _ _ _ H' (64 + rooms args) ltac:(lia) ltac:(lia)) as (N' & X').
  rewrite <- (X (N + N') ltac:(lia)). apply X'. lia.
Qed.
Lemma mended_api : map (fun e => (path_of e, signature e)) (filter (fun e => negb (hidden e)) (fns mended)) = api.
Proof. vm_cast_no_check (eq_refl api). Qed.
Lemma offered_mended f tys : offered mended f tys <-> offered crate f tys.
Proof.
  assert (H : forall P P', structs P = structs P' -> map (fun e => (path_of e, signature e)) (filter (fun e => negb (hidden e)) (fns P)) = api ->
    map (fun e => (path_of e, signature e)) (filter (fun e => negb (hidden e)) (fns P')) = api ->
    offered P f tys -> offered P' f tys).
  { intros P P' S A A' [e E H|x attrs fs I N]; [|apply (offered_new P' x attrs fs); [now rewrite <- S|exact N]].
    assert (X : In (path_of e, signature e) api).
    { rewrite <- A. apply in_map_iff. exists e. split; [reflexivity|]. apply filter_In. split; [exact E|now rewrite H]. }
    rewrite <- A' in X. apply in_map_iff in X as (e' & X & I). apply filter_In in I as [I N]. injection X as <- <-.
    apply offered_fn; [exact I|]. now apply negb_true_iff. }
  split; apply H; [exact (proj1 mended_rest)|exact mended_api|exact api_eq|exact (eq_sym (proj1 mended_rest))|exact api_eq|exact mended_api].
Qed.
Lemma has_type_mended t v : has_type mended t v -> has_type crate t v.
Proof.
  revert t v. fix IH 3. intros t v H.
  destruct H as [b|n|c|s|s|m t v H|x attrs fs vs I E F|x cs c I J|v H|v H|v H|s|s|l|l]; try (constructor; auto; fail).
  - apply (ht_struct crate x attrs fs vs); [now rewrite <- (proj1 mended_rest)|exact E|]. clear E I. revert F.
    generalize (map snd fs) (map snd vs). fix IHF 3. intros a b F. destruct F as [|t v a b T F]; constructor; [apply IH, T|apply IHF, F].
  - apply (ht_enum crate x cs c); [|exact J]. now rewrite <- (proj1 (proj2 (proj2 mended_rest))).
Qed.
Lemma typed_mended tys args : Forall2 (has_type mended) tys args -> Forall2 (has_type crate) tys args.
Proof. intros F. induction F; constructor; auto using has_type_mended. Qed.
Lemma repaired_private s t : is_tag s t -> sound1 (voption (vtag PrivateUseT) (option_map private_text (t_private t))).
Proof.
  intros T. apply sound_option. intros a E. apply sound_tag. pose proof (proj2 (proj2 (proj2 (proj2 (proj2 (is_tag_parts s t T)))))) as A.
  now rewrite E in A.
Qed.
Lemma repaired_it s t : is_tag s t -> exists it, guarded_private_use_subtags s = Ret it /\ sound1 (viter_of "PrivateUseIter" it).
Proof.
  intros T. unfold guarded_private_use_subtags. destruct (guarded_spec s t T) as (_ & _ & _ & _ & _ & E). rewrite E. cbn [bind].
  destruct (t_private t) as [p|] eqn:P; cbn [option_map]; (eexists; split; [reflexivity|]).
  - eapply iter_private. apply PrivateUse_iter_spec. destruct T as [O _]. apply tag_ok_parts in O as (_ & _ & _ & _ & _ & O).
    rewrite P in O. exact O.
  - apply sound_default. cbn. tauto.
Qed.
Lemma mended_private f args : about_private f -> hidden_path f = false -> (exists r, says f args r) -> Forall sound1 args ->
  exists v outs, runs_mended f args (Ret (v, outs)) /\ sound1 v /\ Forall sound1 outs.
Proof.
  intros A N (r & H) S. destruct A as [-> | [-> | [-> | [-> | ->]]]]; try discriminate N; inversion H; subst;
    try match goal with X : _ = type_of ?ty |- _ => destruct ty; discriminate X end;
    try match goal with X : _ = grammar_type ?ty |- _ => destruct ty; discriminate X end;
    inversion S as [|? ? G _]; subst; apply tag_sound in G.
  - apply normal_tag in G as (t & T). destruct (C72_accessors s t NormalLangTagT T (or_introl eq_refl)) as (_ & _ & _ & _ & _ & _ & R & _).
    eexists _, _. split; [exact R|]. split; [now apply (repaired_private s)|auto].
  - apply normal_tag in G as (t & T). destruct (repaired_it s t T) as (it & E & Z). exists (viter_of "PrivateUseIter" it), []. split; [|auto].
    apply (mended_at _ _ _ (3000 + 2 * length s)). with_fuel. rewrite NormalLangTag_private_use_subtags_mended; [now rewrite E|lia|room].
  - destruct (tag_or_not _ s G) as [(t & T)|T].
    + destruct (C72_accessors s t LangTagT T (or_intror eq_refl)) as (_ & _ & _ & _ & _ & _ & R & _).
      eexists _, _. split; [exact R|]. split; [now apply (repaired_private s)|auto].
    + assert (X : not_normal s) by (split; [exact G|]; intros t Y; apply T; apply matches_langtag; now exists t).
      destruct (C72_not_normal s X) as (_ & _ & _ & _ & _ & R & _).
      eexists _, _. split; [exact R|]. split; [apply sound_enum, Forall_nil|auto].
  - destruct (tag_or_not _ s G) as [(t & T)|T].
    + destruct (repaired_it s t T) as (it & E & Z). exists (viter_of "PrivateUseIter" it), []. split; [|auto].
      destruct (guarded_LangTag_normal s t T) as (_ & _ & _ & _ & _ & _ & E7).
      apply (mended_at _ _ _ (3000 + 2 * length s)). with_fuel. rewrite LangTag_private_use_subtags_mended; [now rewrite E7, E|lia|room].
    + exists (viter_of "PrivateUseIter" iter_default), []. split; [|split; [apply sound_default; cbn; tauto|auto]].
      assert (Q : guarded_LangTag_private_use s = Ret None).
      { unfold guarded_LangTag_private_use. rewrite as_normal_eq, (not_tag_accepts s T). reflexivity. }
      apply (mended_at _ _ _ (3000 + 2 * length s)). with_fuel. rewrite LangTag_private_use_subtags_mended; [|lia|room].
      unfold guarded_LangTag_private_use_subtags. rewrite Q. reflexivity.
Qed.
Lemma mended_short f args : panics f args -> Forall sound1 args -> exists v outs, runs_mended f args (Ret (v, outs)) /\ sound1 v /\ Forall sound1 outs.
Proof.
  intros (ty & m & s & t & Y & -> & -> & T & E) S. destruct (is_tag_parts s t T) as (P1 & P2 & P3 & P4 & P5 & P6).
  assert (Y' : ty = NormalLangTagT \/ ty = LangTagT) by tauto.
  destruct (C72_accessors s t ty T Y') as (_ & _ & R2 & R3 & R4 & R5 & R6 & _).
  unfold ends_before in E. cbn [existsb] in E.
  destruct (String.eqb_spec m "script") as [->|_]; [eexists _, _; split; [exact R2|]; split; [|auto]; apply sound_component; auto using good_accepted; discriminate|].
  destruct (String.eqb_spec m "region") as [->|_]; [eexists _, _; split; [exact R3|]; split; [|auto]; apply sound_component; auto using good_accepted; discriminate|].
  destruct (String.eqb_spec m "variants") as [->|_]; [eexists _, _; split; [exact R4|]; split; [|auto]; now apply sound_tag|].
  destruct (String.eqb_spec m "private_use") as [->|_]; [eexists _, _; split; [exact R6|]; split; [|auto]; now apply (repaired_private s)|].
  destruct (String.eqb_spec m "private_use_subtags") as [->|_].
  - apply mended_private.
    + unfold about_private. destruct Y as [-> | ->]; cbn [type_of]; tauto.
    + destruct Y as [-> | ->]; reflexivity.
    + destruct Y as [-> | ->]; eexists; constructor.
    + exact S.
  - cbn [orb] in E. destruct (String.eqb_spec m "extensions") as [->|_]; [|discriminate E].
    eexists _, _; split; [exact R5|]; split; [|auto]; now apply sound_tag.
Qed.
Lemma mended_call f tys args : offered crate f tys -> Forall2 (has_type crate) tys args -> Forall sound1 args ->
  exists v outs, runs_mended f args (Ret (v, outs)) /\ sound1 v /\ Forall sound1 outs.
Proof.
  intros O T S. destruct (typed_says f tys args O T) as (r & H).
  - intros b B. apply singleton_alphanumeric. apply (singleton_sound (accepted PrivateUseT)). exact (proj1 (Forall_forall _ _) S _ B).
  - apply offered_not_hidden in O. destruct (about_private_dec f) as [A|A]; [apply mended_private; eauto|].
    destruct (says_sound _ (fun s A => A) accepted_private_form f args r H O A S) as [(v & outs & E & V & W)|[E P]].
    + subst r. exists v, outs. split; [|auto]. apply conservative; [exact H| |exact A]. intros ->. discriminate O.
    + now apply mended_short.
Qed.
Lemma mended_reached_sound v : reached mended runs_mended v -> sound1 v.
Proof.
  intros H. induction H as [s U|s|b|c|l|x cs c I J|c v T R IH|f tys args v outs O T R IH C|f tys args v outs w O T R IH C W|v w R IH P].
  - now apply sound_str.
  - apply sound_bytes.
  - apply sound_byte.
  - apply sound_char.
  - apply sound_sink.
  - apply sound_enum, Forall_nil.
  - apply sound_enum. auto.
  - destruct (mended_call f tys args) as (v' & outs' & Y & S & _);
      [now apply offered_mended|now apply typed_mended|now apply Forall_forall|].
    pose proof (runs_mended_unique _ _ _ _ Y C) as E. now injection E as <- <-.
  - destruct (mended_call f tys args) as (v' & outs' & Y & _ & S);
      [now apply offered_mended|now apply typed_mended|now apply Forall_forall|].
    pose proof (runs_mended_unique _ _ _ _ Y C) as E. injection E as <- <-. exact (proj1 (Forall_forall _ _) S _ W).
  - eapply sound_part; eassumption.
Qed.

(** * 3. C73 *)

(** The texts that are no words of the rule of their type, and yet are made into one: a [PrimaryLanguage] of four to eight
    letters (normal/language/mod.rs:33-40); and a [PrivateUse] that is the extensions of a tag (normal/mod.rs:128-143). *)
Definition long_primary (ty : newtype) (s : bytes) : Prop :=
  ty = PrimaryLanguageT /\ 4 <= length s <= 8 /\ forallb is_alpha s = true.
Definition from_extensions (ty : newtype) (s : bytes) : Prop :=
  ty = PrivateUseT /\ exists w t, is_tag w t /\ t_extensions t <> [] /\ s = join (rest_subtags t).

Lemma derived_accepted ty s : derived_from grammar_abnf (rule_name ty) s <-> accepted ty s.
Proof. destruct (rules_decided ty s) as [[N D]|[N D]]; split; intros X; auto; [contradiction|]. unfold accepted in X. congruence. Qed.
Lemma good_texts (pu : bytes -> Prop) ty s : (forall s, pu s -> accepted PrivateUseT s \/ from_extensions PrivateUseT s) -> good pu ty s ->
  derived_from grammar_abnf (rule_name ty) s \/ long_primary ty s \/ (pu s /\ from_extensions ty s).
Proof.
  intros P G. destruct ty; try (left; now apply derived_accepted); cbn [good] in G.
  - destruct (P s G) as [A|A]; [left; now apply derived_accepted|right; right; auto].
  - destruct G as (l & L & ->). unfold language_ok in L. apply orb_prop in L as [L|L].
    + left. apply derived_accepted, accepted_primary. apply andb_prop in L as [L _]. now apply andb_prop in L as [L _].
    + right; left. split; [reflexivity|]. apply andb_prop in L as [L _]. unfold sized in L. apply andb_prop in L as [L L3].
      apply andb_prop in L as [L1 L2]. apply Nat.leb_le in L1, L2. auto.
Qed.
Lemma offered_crate f tys : In (f, tys) api -> offered crate f tys.
Proof.
  intros I. rewrite <- api_eq in I. apply in_map_iff in I as (e & E & I). apply filter_In in I as [I N]. injection E as <- <-.
  apply offered_fn; [exact I|now apply negb_true_iff].
Qed.
Lemma in_api f tys : find (fun p => if list_eq_dec string_dec f (fst p) then true else false) api = Some (f, tys) -> In (f, tys) api.
Proof. intros E. now apply find_some in E. Qed.
Lemma in_shapes x fs : assoc x shapes = Some fs -> In (x, fs) shapes.
Proof.
  generalize shapes. intros l. induction l as [|[y a] l IH]; intros E; [discriminate E|]. cbn [assoc] in E.
  destruct (String.eqb_spec x y) as [->|_]; [injection E as ->; now left|right; now apply IH].
Qed.
Lemma offered_new_of P ty : structs P = structs crate -> offered P [type_of ty; "new"] [TyPath ["T"] []].
Proof.
  intros S. assert (X : In (type_of ty) new_types) by (destruct ty; vm_compute; tauto). rewrite <- new_types_eq in X.
  apply in_map_iff in X as ([[x attrs] fs] & E & I). apply filter_In in I as [I A]. cbn [fst snd] in *. subst x.
  apply (offered_new P _ attrs fs); [now rewrite S|]. intros N. now rewrite N in A.
Qed.
Lemma typed_tag ty s : has_type crate (TyPath [type_of ty] []) (vtag ty s).
Proof.
  assert (X : exists attrs, In (type_of ty, attrs, [("0", TyPath ["str"] [])]) (structs crate)).
  { assert (Y : In (type_of ty, [("0", TyPath ["str"] [])]) shapes) by (apply in_shapes; destruct ty; reflexivity).
    rewrite <- shapes_eq in Y. apply in_map_iff in Y as ([[x attrs] fs] & E & I). cbn [fst snd] in E. injection E as -> ->. now exists attrs. }
  destruct X as (attrs & X). apply (ht_struct crate _ attrs _ _ X); [reflexivity|]. constructor; constructor.
Qed.
Lemma reached_new ty s : accepted ty s -> reached crate runs (vtag ty s).
Proof.
  intros A. apply (reached_part _ _ (okv (vtag ty s))); [|apply part_enum; now left].
  apply (reached_result crate runs [type_of ty; "new"] [TyPath ["T"] []] [VBytes s] _ []).
  - now apply offered_new_of.
  - repeat constructor.
  - intros a [<-|[]]. apply reached_bytes.
  - pose proof (says_runs _ _ _ (says_new_bytes ty s)) as R. rewrite A in R. exact R.
Qed.
Lemma reached_accessor ty m s v : In ([type_of ty; m], [TyPath [type_of ty] []]) api -> reached crate runs (vtag ty s) ->
  says [type_of ty; m] [vtag ty s] (Ret (v, [])) -> reached crate runs v.
Proof.
  intros I R H. apply (reached_result crate runs [type_of ty; m] [TyPath [type_of ty] []] [vtag ty s] v []).
  - now apply offered_crate.
  - constructor; [apply typed_tag|constructor].
  - intros a [<-|[]]. exact R.
  - now apply says_runs.
Qed.

(** What is offered is what the text declares [pub], or what is of a trait, outside of the private modules. *)
Theorem C73_offered : map fst marked = map (fun e => fn_name (en_fn e)) (rev (fns crate)) /\
  map hidden (rev (fns crate)) =
  map (fun p => let '(e, public) := p in String.eqb (en_type e) "" || String.prefix "grammar::" (en_type e) ||
         (match en_trait e with None => negb public | Some _ => false end))
    (combine (rev (fns crate)) (map snd marked)).
Proof. exact hidden_is_private. Qed.
(** The tags that a program can get hold of. *)
Theorem C73_texts : forall ty s,
  reached crate runs (vtag ty s) <-> derived_from grammar_abnf (rule_name ty) s \/ long_primary ty s \/ from_extensions ty s.
Proof.
  intros ty s. split.
  - intros R. apply reached_sound, tag_sound, good_texts in R; [tauto|]. intros x [X|X]; [now left|right; split; auto].
  - intros [D|[(-> & L & A)|(-> & w & t & T & N & ->)]].
    + now apply reached_new, derived_accepted.
    + assert (Lg : language_ok (Lang s []) = true).
      { unfold language_ok. cbn [l_primary l_extlangs]. apply orb_true_iff. right. rewrite andb_true_r. unfold sized.
        rewrite A, andb_true_r. apply andb_true_iff. split; apply Nat.leb_le; lia. }
      apply (reached_accessor LanguageT "primary" s); [apply in_api; reflexivity| |].
      * apply reached_new, accepted_language. exists (Lang s []). split; [exact Lg|reflexivity].
      * replace s with (Language_primary s) at 2; [apply says_Language_primary|]. exact (Language_primary_spec _ Lg).
    + apply (reached_part _ _ (some (vtag PrivateUseT (join (rest_subtags t))))); [|apply part_enum; now left].
      apply (reached_accessor NormalLangTagT "private_use" w); [apply in_api; reflexivity| |].
      * apply reached_new. now apply (is_tag_accepted w t).
      * pose proof (says_Normal_private_use w) as H. rewrite (private_use_exact w t T) in H.
        assert (E : ends_by_variants t = false) by (unfold ends_by_variants; now destruct (t_extensions t)).
        unfold ends_by_region in H. rewrite E, andb_false_r in H. exact H.
Qed.
(** Likewise singletons. *)
Theorem C73_singletons : forall b, reached crate runs (vsingleton b) <-> derived_from grammar_abnf "singleton" [b].
Proof.
  intros b. assert (E : singleton_ok b = true <-> derived_from grammar_abnf "singleton" [b]).
  { rewrite <- C52_singleton_file, Singleton_new_spec. destruct (singleton_ok b); split; intros X; congruence. }
  split.
  - intros R. apply E. now apply reached_sound, singleton_sound in R.
  - intros D. apply (reached_part _ _ (okv (vsingleton b))); [|apply part_enum; now left].
    apply (reached_result crate runs ["Singleton"; "new"] [TyPath ["u8"] []] [VByte b] _ []).
    + apply offered_crate, in_api. reflexivity.
    + repeat constructor.
    + intros a [<-|[]]. apply reached_byte.
    + now apply C60_singleton.
Qed.
(** Every string slice handed out is valid UTF-8. *)
Theorem C73_utf8 : forall s, reached crate runs (VStr s) <-> utf8 s.
Proof. intros s. split; [intros R; exact (str_sound _ _ (reached_sound _ R))|apply reached_str]. Qed.

Lemma panics_says f args : panics f args -> says f args Panic.
Proof.
  intros (ty & m & s & t & Y & -> & -> & T & E). destruct (LangTag_normal s t T) as (_ & L2 & L3 & L4 & L5 & L6 & L7).
  unfold ends_before in E. cbn [existsb] in E.
  destruct (String.eqb_spec m "script") as [->|_].
  { destruct Y as [-> | ->]; [pose proof (says_LangTag_script s) as H; rewrite L2 in H|pose proof (says_Normal_script s) as H];
      rewrite (script_exact s t T), E in H; exact H. }
  destruct (String.eqb_spec m "region") as [->|_].
  { destruct Y as [-> | ->]; [pose proof (says_LangTag_region s) as H; rewrite L3 in H|pose proof (says_Normal_region s) as H];
      rewrite (region_exact s t T), E in H; exact H. }
  destruct (String.eqb_spec m "variants") as [->|_].
  { destruct Y as [-> | ->]; [pose proof (says_LangTag_variants s) as H; rewrite L4 in H|pose proof (says_Normal_variants s) as H];
      rewrite (variants_exact s t T) in H; cbn [orb] in E; rewrite E in H; exact H. }
  destruct (String.eqb_spec m "private_use") as [->|_].
  { destruct Y as [-> | ->]; [pose proof (says_LangTag_private_use s) as H; rewrite L6 in H|pose proof (says_Normal_private_use s) as H];
      rewrite (private_use_exact s t T) in H; cbn [orb] in E; rewrite E in H; exact H. }
  destruct (String.eqb_spec m "private_use_subtags") as [->|_].
  { destruct (subtags_it s t T) as (it & _ & X). cbn [orb] in E. rewrite E in X.
    destruct Y as [-> | ->]; [pose proof (says_LangTag_private_use_subtags s) as H; rewrite L7 in H
      |pose proof (says_Normal_private_use_subtags s) as H]; rewrite X in H; exact H. }
  cbn [orb] in E. destruct (String.eqb_spec m "extensions") as [->|_]; [|discriminate E].
  destruct Y as [-> | ->]; [pose proof (says_LangTag_extensions s) as H; rewrite L5 in H|pose proof (says_Normal_extensions s) as H];
    rewrite (extensions_exact s t T), E in H; exact H.
Qed.
(** Calls, on values that it can have: six methods panic on tags that end before what they look for; nothing else panics,
    and whatever does not panic returns. *)
Theorem C73_calls : forall f tys args, offered crate f tys -> Forall2 (has_type crate) tys args ->
  (forall a, In a args -> reached crate runs a) ->
  (panics f args /\ runs f args Panic) \/ (~ panics f args /\ exists v outs, runs f args (Ret (v, outs))).
Proof.
  intros f tys args O T R. destruct (call_sound f tys args O T) as (r & H & F).
  - apply Forall_forall. intros a A. now apply reached_sound, R.
  - apply says_runs in H. destruct F as [(v & outs & -> & _)|[-> P]]; [right|now left]. split; [|now exists v, outs].
    intros P. apply panics_says, says_runs in P. pose proof (runs_unique _ _ _ _ H P) as E. discriminate E.
Qed.
(** After the patch of C72 nothing panics, *)
Theorem C73_patched_calls : forall f tys args, offered mended f tys -> Forall2 (has_type mended) tys args ->
  (forall a, In a args -> reached mended runs_mended a) -> exists v outs, runs_mended f args (Ret (v, outs)).
Proof.
  intros f tys args O T R. destruct (mended_call f tys args) as (v & outs & H & _).
  - now apply offered_mended.
  - now apply typed_mended.
  - apply Forall_forall. intros a A. now apply mended_reached_sound, R.
  - now exists v, outs.
Qed.
(** the functions offered are the same, and the texts are those of the grammar, except for long primary languages. *)
Theorem C73_patched_texts : (forall f tys, offered mended f tys <-> offered crate f tys) /\
  forall ty s, reached mended runs_mended (vtag ty s) -> derived_from grammar_abnf (rule_name ty) s \/ long_primary ty s.
Proof.
  split; [exact offered_mended|]. intros ty s R. apply mended_reached_sound, tag_sound, good_texts in R; [|now left].
  destruct R as [R|[R|[A (-> & _)]]]; [now left|now right|left; now apply derived_accepted].
Qed.
Print Assumptions C73_offered.
Print Assumptions C73_texts.
Print Assumptions C73_singletons.
Print Assumptions C73_utf8.
Print Assumptions C73_calls.
Print Assumptions C73_patched_calls.
Print Assumptions C73_patched_texts.
(** A program parses ["fr-a-ext"], asks for the private use subtags, and has a [PrivateUse] that is none; it parses ["fr"],
    asks for the script, and panics. *)
Example C73_case :
  reached crate runs (vtag PrivateUseT (bs "a-ext")) /\ ~ derived_from grammar_abnf "privateuse" (bs "a-ext") /\
  ~ reached crate runs (vtag PrivateUseT (bs "fr")) /\
  offered crate ["LangTag"; "script"] [TyPath ["LangTag"] []] /\ reached crate runs (vtag LangTagT (bs "fr")) /\
  panics ["LangTag"; "script"] [vtag LangTagT (bs "fr")] /\ ~ panics ["LangTag"; "script"] [vtag LangTagT (bs "fr-Latn")] /\
  ~ offered crate ["VariantsIter"; "new"] [TyRef false (TyPath ["str"] [])] /\
  length api = 132 /\ length new_types = 15.
Proof.
  assert (T : is_tag (bs "fr-a-ext") (Tag (Lang (bs "fr") []) None None [] [Ext "a"%byte [bs "ext"]] None)) by (split; reflexivity).
  split; [|split; [|split; [|split; [|split; [|split; [|split; [|split; [|split]]]]]]]].
  - apply C73_texts. right; right. split; [reflexivity|]. exists (bs "fr-a-ext"), (Tag (Lang (bs "fr") []) None None [] [Ext "a"%byte [bs "ext"]] None).
    split; [exact T|]. split; [discriminate|reflexivity].
  - intros D. apply (derived_accepted PrivateUseT) in D. vm_compute in D. discriminate D.
  - intros R. apply C73_texts in R as [D|[(E & _)|(_ & w & t & [O _] & N & X)]].
    + apply (derived_accepted PrivateUseT) in D. vm_compute in D. discriminate D.
    + discriminate E.
    + destruct (rest_form t O) as (b & l & Y); [unfold ends_by_variants; now destruct (t_extensions t)|].
      rewrite Y, join_cons in X. destruct l; discriminate X.
  - apply offered_crate, in_api. reflexivity.
  - apply C73_texts. left. apply derived_accepted. vm_compute. reflexivity.
  - exists LangTagT, "script", (bs "fr"), (Tag (Lang (bs "fr") []) None None [] [] None). repeat split. now left.
  - intros P. apply panics_says, says_runs in P. pose proof (says_runs _ _ _ (says_LangTag_script (bs "fr-Latn"))) as H.
    pose proof (runs_unique _ _ _ _ P H) as E. vm_compute in E. discriminate E.
  - intros O. apply offered_not_hidden in O. discriminate O.
  - reflexivity.
  - reflexivity.
Qed.
