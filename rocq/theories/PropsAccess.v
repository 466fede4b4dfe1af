(** Properties C09-C17, C35, C36, C38, C39, C46, C49 and C50: the component accessors. *)
From Verif Require Import Base GrammarRs Validate Utils Grandfathered Normal LangTag Newtypes Derived Spec Observe
  RegexEquiv Accept AcceptTag Case CaseTag Direct Parse Scan Access Iter Kind Grammar Parts Compose Order Values More
  Samples.

(** A tag that is not normal: private use or irregular grandfathered. *)
Definition not_normal (s : bytes) : Prop := accepted LangTagT s /\ forall t, ~ is_tag s t.
Lemma not_normal_abnf s : not_normal s -> ~ matches abnf_langtag s.
Proof. intros [_ N] M. apply matches_langtag in M as (t & T). exact (N t T). Qed.
Example not_normal_case : not_normal (bs "x-foo-bar") /\ not_normal (bs "i-klingon").
Proof.
  assert (N : forall s, accepted LangTagT s -> new Langtag s <> Ret (Ok s) -> not_normal s).
  { intros s A N. split; [exact A|]. intros t T. exact (N (is_tag_accepted s t T)). }
  split; (apply N; [vm_compute; reflexivity|intros H; vm_compute in H; discriminate]).
Qed.

Lemma contra (a b : bool) : (a = true -> b = true) -> b = false -> a = false.
Proof. destruct a, b; auto; intros H; discriminate (H eq_refl). Qed.

(** * C09 *)

Theorem C09_language : forall s t, is_tag s t ->
  NormalLangTag_language s = Ret (language_text (t_language t)) /\
  LangTag_language s = Ret (Some (language_text (t_language t))) /\
  (let! ty := LangTag_as_typed s in Typed_language ty) = Ret (Some (language_text (t_language t))).
Proof.
  intros s t T. pose proof (language_exact s t T) as L. destruct (LangTag_normal s t T) as (E & _).
  rewrite L in E. cbn [omap bind] in E. split; [exact L|]. split; [exact E|].
  rewrite Typed_language_agrees; [exact E|]. apply accepted_normal_tag. exact (is_tag_accepted s t T).
Qed.
Theorem C09_language_none : forall s, not_normal s ->
  LangTag_language s = Ret None /\ (let! ty := LangTag_as_typed s in Typed_language ty) = Ret None.
Proof.
  intros s N. pose proof (LangTag_not_normal s (not_normal_abnf s N)) as (E & _). split; [exact E|].
  rewrite Typed_language_agrees; [exact E|]. exact (proj1 N).
Qed.
Print Assumptions C09_language.
Print Assumptions C09_language_none.
Example C09_case : is_tag full_text full_tag /\ NormalLangTag_language full_text = Ret (bs "sl-cmn") /\
  is_tag lone_text lone_tag /\ NormalLangTag_language lone_text = Ret (bs "fr").
Proof. split; [exact full_is_tag|]. split; [|split; [exact lone_is_tag|]]; vm_compute; reflexivity. Qed.

(** * C10: false on a tag that is a language only, where [script] panics. *)

Definition C10_statement : Prop := forall s t, is_tag s t -> NormalLangTag_script s = Ret (t_script t).
Theorem C10_refuted : ~ C10_statement.
Proof. intros H. specialize (H _ _ lone_is_tag). vm_compute in H. discriminate. Qed.
(** On every other normal tag, it is the script. *)
Theorem C10_script_partial : forall s t, is_tag s t ->
  (ends_by_language t = false -> NormalLangTag_script s = Ret (t_script t)) /\
  (ends_by_language t = true -> NormalLangTag_script s = Panic) /\
  LangTag_script s = NormalLangTag_script s.
Proof.
  intros s t T. rewrite (script_exact s t T). destruct (LangTag_normal s t T) as (_ & E & _).
  rewrite E, (script_exact s t T). repeat split; intros ->; reflexivity.
Qed.
Theorem C10_script_none : forall s, not_normal s -> LangTag_script s = Ret None.
Proof. intros s N. exact (proj1 (proj2 (LangTag_not_normal s (not_normal_abnf s N)))). Qed.
Print Assumptions C10_refuted.
Print Assumptions C10_script_partial.
Print Assumptions C10_script_none.
Example C10_case : ends_by_language full_tag = false /\ NormalLangTag_script full_text = Ret (Some (bs "Latn")) /\
  ends_by_language ext_tag_sample = false /\ NormalLangTag_script ext_text_sample = Ret None /\
  ends_by_language lone_tag = true.
Proof. repeat split; vm_compute; reflexivity. Qed.

(** * C11: false on language[-script], where [region] panics. *)

Definition C11_statement : Prop := forall s t, is_tag s t -> NormalLangTag_region s = Ret (t_region t).
Theorem C11_refuted : ~ C11_statement.
Proof. intros H. specialize (H _ _ lone_is_tag). vm_compute in H. discriminate. Qed.
Theorem C11_region_partial : forall s t, is_tag s t ->
  (ends_by_script t = false -> NormalLangTag_region s = Ret (t_region t)) /\
  (ends_by_script t = true -> NormalLangTag_region s = Panic) /\
  LangTag_region s = NormalLangTag_region s.
Proof.
  intros s t T. rewrite (region_exact s t T). destruct (LangTag_normal s t T) as (_ & _ & E & _).
  rewrite E, (region_exact s t T). repeat split; intros ->; reflexivity.
Qed.
Theorem C11_region_none : forall s, not_normal s -> LangTag_region s = Ret None.
Proof. intros s N. exact (proj1 (proj2 (proj2 (LangTag_not_normal s (not_normal_abnf s N))))). Qed.
Print Assumptions C11_refuted.
Print Assumptions C11_region_partial.
Print Assumptions C11_region_none.
Example C11_case : ends_by_script full_tag = false /\ NormalLangTag_region full_text = Ret (Some (bs "IT")) /\
  ends_by_script short_tag = false /\ NormalLangTag_region short_text = Ret (Some (bs "TW")) /\
  ends_by_script lone_tag = true.
Proof. repeat split; vm_compute; reflexivity. Qed.

(** * C12: false on language[-script][-region], where [variants] panics. *)

Definition C12_statement : Prop := forall s t, is_tag s t -> NormalLangTag_variants s = Ret (join (t_variants t)).
Theorem C12_refuted : ~ C12_statement.
Proof. intros H. specialize (H _ _ short_is_tag). vm_compute in H. discriminate. Qed.
Theorem C12_variants_partial : forall s t, is_tag s t ->
  (ends_by_region t = false -> NormalLangTag_variants s = Ret (join (t_variants t))) /\
  (ends_by_region t = true -> NormalLangTag_variants s = Panic) /\
  LangTag_variants s = NormalLangTag_variants s.
Proof.
  intros s t T. rewrite (variants_exact s t T). destruct (LangTag_normal s t T) as (_ & _ & _ & E & _).
  rewrite E, (variants_exact s t T). repeat split; intros ->; reflexivity.
Qed.
Theorem C12_variants_none : forall s, not_normal s -> LangTag_variants s = Ret [].
Proof. intros s N. apply LangTag_not_normal, not_normal_abnf, N. Qed.
Print Assumptions C12_refuted.
Print Assumptions C12_variants_partial.
Print Assumptions C12_variants_none.
Example C12_case : ends_by_region full_tag = false /\ NormalLangTag_variants full_text = Ret (bs "rozaj-1996") /\
  ends_by_region ext_tag_sample = false /\ NormalLangTag_variants ext_text_sample = Ret [] /\
  ends_by_region short_tag = true.
Proof. repeat split; vm_compute; reflexivity. Qed.

(** * C13: false without extensions and private use, where [extensions] panics. *)

Definition C13_statement : Prop :=
  forall s t, is_tag s t -> NormalLangTag_extensions s = Ret (extensions_text (t_extensions t)).
Theorem C13_refuted : ~ C13_statement.
Proof. intros H. specialize (H _ _ short_is_tag). vm_compute in H. discriminate. Qed.
Theorem C13_extensions_partial : forall s t, is_tag s t ->
  (ends_by_variants t = false -> NormalLangTag_extensions s = Ret (extensions_text (t_extensions t))) /\
  (ends_by_variants t = true -> NormalLangTag_extensions s = Panic) /\
  LangTag_extensions s = NormalLangTag_extensions s.
Proof.
  intros s t T. rewrite (extensions_exact s t T). destruct (LangTag_normal s t T) as (_ & _ & _ & _ & E & _).
  rewrite E, (extensions_exact s t T). repeat split; intros ->; reflexivity.
Qed.
Theorem C13_extensions_none : forall s, not_normal s -> LangTag_extensions s = Ret [].
Proof. intros s N. apply LangTag_not_normal, not_normal_abnf, N. Qed.
Print Assumptions C13_refuted.
Print Assumptions C13_extensions_partial.
Print Assumptions C13_extensions_none.
Example C13_case :
  ends_by_variants full_tag = false /\ NormalLangTag_extensions full_text = Ret (bs "a-foo-b-bar-Baz") /\
  ends_by_variants private_tag_sample = false /\ NormalLangTag_extensions private_text_sample = Ret [] /\
  ends_by_variants short_tag = true.
Proof. repeat split; vm_compute; reflexivity. Qed.

(** * C14: false with extensions (what is returned starts at the first extension, private use or not) and on
    language[-script][-region], where [private_use] panics. *)

Definition C14_statement : Prop :=
  forall s t, is_tag s t -> NormalLangTag_private_use s = Ret (option_map private_text (t_private t)).
Theorem C14_refuted : ~ C14_statement.
Proof. intros H. specialize (H _ _ ext_is_tag). vm_compute in H. discriminate. Qed.
Theorem C14_private_use_partial : forall s t, is_tag s t ->
  (t_extensions t = [] -> ends_by_region t = false ->
   NormalLangTag_private_use s = Ret (option_map private_text (t_private t))) /\
  (t_extensions t <> [] ->
   NormalLangTag_private_use s = Ret (Some (join (rest_subtags t)))) /\
  (ends_by_region t = true -> NormalLangTag_private_use s = Panic) /\
  LangTag_private_use s = NormalLangTag_private_use s.
Proof.
  intros s t T. split; [intros X R; exact (private_use_no_ext s t T X R)|].
  split; [|split; [intros R; rewrite (private_use_exact s t T), R; reflexivity|]].
  - intros X. assert (V : ends_by_variants t = false)
      by (unfold ends_by_variants; destruct (t_extensions t); [congruence|reflexivity]).
    assert (R : ends_by_region t = false) by (unfold ends_by_region; rewrite V; destruct (empty _); reflexivity).
    rewrite (private_use_exact s t T), R, V. reflexivity.
  - apply (LangTag_normal s t T).
Qed.
(** Exactly when it is right. *)
Theorem C14_exact : forall s t, is_tag s t ->
  (NormalLangTag_private_use s = Ret (option_map private_text (t_private t)) <->
   t_extensions t = [] /\ ends_by_region t = false).
Proof.
  intros s t T. split; [|intros [X R]; exact (private_use_no_ext s t T X R)].
  rewrite (private_use_exact s t T). intros H.
  destruct (ends_by_region t) eqn:R; [discriminate|]. split; [|reflexivity].
  destruct (ends_by_variants t) eqn:V.
  { unfold ends_by_variants in V. apply Bool.andb_true_iff in V as [V _]. apply empty_nil, V. }
  injection H as H. destruct (t_private t) as [p|] eqn:P; [|discriminate].
  cbn [option_map] in H. injection H as H. destruct (t_extensions t) as [|e l] eqn:X; [reflexivity|exfalso].
  destruct T as [T _]. unfold tag_ok in T. rewrite P, X in T. cbn [opt_ok extensions_ok forallb] in T.
  apply Bool.andb_true_iff in T as [T Tp]. apply Bool.andb_true_iff in T as [_ Te].
  cbn [extensions_ok forallb] in Te. apply Bool.andb_true_iff in Te as [Te _].
  unfold extension_ok in Te. apply Bool.andb_true_iff in Te as [Te _]. apply Bool.andb_true_iff in Te as [Te _].
  unfold private_ok in Tp. apply Bool.andb_true_iff in Tp as [Tp _]. apply Bool.andb_true_iff in Tp as [Tp _].
  assert (F : forall (b : byte) l, hd_error (join ([b] :: l)) = Some b) by (intros b [|y m]; reflexivity).
  assert (Q : Some (p_x p) = Some (e_singleton e)).
  { rewrite <- (F (p_x p) (p_subtags p)). change (join ([p_x p] :: p_subtags p)) with (private_text p).
    rewrite <- H. unfold rest_subtags. rewrite X. apply F. }
  injection Q as Q. rewrite Q in Tp. unfold singleton_ok in Te. destruct (beq (e_singleton e) "x"%byte), (beq (e_singleton e) "X"%byte);
    cbn in Tp, Te; rewrite ?Bool.andb_false_r in Te; discriminate.
Qed.
Theorem C14_private_use_none : forall s, not_normal s -> LangTag_private_use s = Ret None.
Proof. intros s N. apply LangTag_not_normal, not_normal_abnf, N. Qed.
Print Assumptions C14_refuted.
Print Assumptions C14_private_use_partial.
Print Assumptions C14_exact.
Print Assumptions C14_private_use_none.
Example C14_case : is_tag private_text_sample private_tag_sample /\
  NormalLangTag_private_use private_text_sample = Ret (Some (bs "x-ab-c")) /\
  is_tag full_text full_tag /\ t_extensions full_tag <> [] /\
  NormalLangTag_private_use full_text = Ret (Some (bs "a-foo-b-bar-Baz-x-priv-1")).
Proof.
  split; [exact private_is_tag|]. split; [vm_compute; reflexivity|]. split; [exact full_is_tag|].
  split; [discriminate|vm_compute; reflexivity].
Qed.

(** * C15: false for the same reasons. *)

Definition C15_statement : Prop := forall s t k, is_tag s t ->
  (let! it := NormalLangTag_private_use_subtags s in calls PrivateUseIter_next k it) =
  Ret (expected_next k (match t_private t with Some p => p_subtags p | None => [] end)).
Theorem C15_refuted : ~ C15_statement.
Proof. intros H. specialize (H _ _ 1 ext_is_tag). vm_compute in H. discriminate. Qed.
Theorem C15_private_use_subtags_partial : forall s t k, is_tag s t ->
  (t_extensions t = [] -> ends_by_region t = false ->
   (let! it := NormalLangTag_private_use_subtags s in calls PrivateUseIter_next k it) =
   Ret (expected_next k (match t_private t with Some p => p_subtags p | None => [] end))) /\
  (t_extensions t <> [] ->
   (let! it := NormalLangTag_private_use_subtags s in calls PrivateUseIter_next k it) =
   Ret (expected_next k (tl (rest_subtags t)))) /\
  (ends_by_region t = true -> NormalLangTag_private_use_subtags s = Panic) /\
  LangTag_private_use_subtags s = NormalLangTag_private_use_subtags s.
Proof.
  intros s t k T. split; [intros X R; exact (private_use_subtags_no_ext s t k T X R)|].
  split; [|split].
  - intros X. assert (V : ends_by_variants t = false)
      by (unfold ends_by_variants; destruct (t_extensions t); [congruence|reflexivity]).
    assert (R : ends_by_region t = false) by (unfold ends_by_region; rewrite V; destruct (empty _); reflexivity).
    rewrite (private_use_subtags_exact s t k T), R. reflexivity.
  - intros R. unfold NormalLangTag_private_use_subtags. rewrite (private_use_exact s t T), R. reflexivity.
  - apply (LangTag_normal s t T).
Qed.
Theorem C15_private_use_subtags_none : forall s k, not_normal s ->
  (let! it := LangTag_private_use_subtags s in calls PrivateUseIter_next k it) = Ret (expected_next k []).
Proof. intros s k N. apply LangTag_not_normal, not_normal_abnf, N. Qed.
Print Assumptions C15_refuted.
Print Assumptions C15_private_use_subtags_partial.
Print Assumptions C15_private_use_subtags_none.
Example C15_case : t_extensions private_tag_sample = [] /\ ends_by_region private_tag_sample = false /\
  (let! it := NormalLangTag_private_use_subtags private_text_sample in calls PrivateUseIter_next 4 it) =
  Ret [Some (bs "ab"); Some (bs "c"); None; None].
Proof. repeat split; vm_compute; reflexivity. Qed.

(** * C16: false. *)

Definition returns {A} (x : outcome A) : Prop := exists a, x = Ret a.
Definition C16_statement : Prop := forall s, accepted LangTagT s ->
  returns (LangTag_language s) /\ returns (LangTag_script s) /\ returns (LangTag_region s) /\
  returns (LangTag_variants s) /\ returns (LangTag_extensions s) /\ returns (LangTag_private_use s) /\
  returns (LangTag_private_use_subtags s).
Theorem C16_refuted : ~ C16_statement.
Proof.
  intros H. destruct (H (bs "fr")) as (_ & (x & E) & _); [vm_compute; reflexivity|]. vm_compute in E. discriminate.
Qed.
(** [language] never panics; the others panic exactly on the normal tags that end too early. *)
Theorem C16_exact_partial : forall s, accepted LangTagT s ->
  returns (LangTag_language s) /\
  (LangTag_script s = Panic <-> exists t, is_tag s t /\ ends_by_language t = true) /\
  (LangTag_region s = Panic <-> exists t, is_tag s t /\ ends_by_script t = true) /\
  (LangTag_variants s = Panic <-> exists t, is_tag s t /\ ends_by_region t = true) /\
  (LangTag_extensions s = Panic <-> exists t, is_tag s t /\ ends_by_variants t = true) /\
  (LangTag_private_use s = Panic <-> exists t, is_tag s t /\ ends_by_region t = true) /\
  (LangTag_private_use_subtags s = Panic <-> exists t, is_tag s t /\ ends_by_region t = true) /\
  ((exists t, is_tag s t /\ ends_by_variants t = false) \/ not_normal s ->
   returns (LangTag_script s) /\ returns (LangTag_region s) /\ returns (LangTag_variants s) /\
   returns (LangTag_extensions s) /\ returns (LangTag_private_use s) /\ returns (LangTag_private_use_subtags s)).
Proof.
  intros s A. destruct (tag_cases s A) as [N|N].
  - assert (exists t, is_tag s t) as [t T].
    { destruct (proj1 (proj2 (proj2 direct_decided)) s) as [[_ X]|[X _]]; [exact X|].
      pose proof (eq_trans (eq_sym N) X) as Z. discriminate. }
    assert (U : forall e, (exists t', is_tag s t' /\ e t' = true) <-> e t = true).
    { intros e. split; [|intros E; exists t; auto]. intros (t' & T' & E).
      destruct T as [T ->], T' as [T' E']. rewrite (tag_unique t t' T T' E'). exact E. }
    rewrite !U. destruct (LangTag_normal s t T) as (L1 & L2 & L3 & L4 & L5 & L6 & L7).
    rewrite L1, L2, L3, L4, L5, L6, L7. unfold NormalLangTag_private_use_subtags.
    rewrite (language_exact s t T), (script_exact s t T), (region_exact s t T), (variants_exact s t T),
      (extensions_exact s t T), (private_use_exact s t T). destruct (ends_chain t) as (E1 & E2 & E3).
    split; [eexists; reflexivity|].
    do 6 (split; [match goal with |- context [if ?b then _ else _] => destruct b end; cbn [bind];
      split; congruence|]).  
    intros [H|[_ H]]; [|destruct (H t T)].
    assert (V : ends_by_variants t = false).
    { destruct H as (t' & T' & E). destruct T as [T ->], T' as [T' E']. rewrite (tag_unique t t' T T' E'). exact E. }
    pose proof (contra _ _ E3 V) as R.
    pose proof (contra _ _ E2 R) as C.
    pose proof (contra _ _ E1 C) as L.
    rewrite L, C, R, V. repeat split; eexists; reflexivity.
  - assert (NN : ~ matches abnf_langtag s).
    { intros M. destruct (classification s A) as [(_ & X & Y & _)|[(X & _)|(X & _)]]; try tauto.
      destruct N as [N|N]; [|tauto]. apply X. 
      destruct (proj1 productions_decided s) as [[_ Z]|[Z _]]; [exact Z|].
      pose proof (eq_trans (eq_sym N) Z) as Q. discriminate. }
    assert (NT : forall t, ~ is_tag s t).
    { intros t T. apply NN, matches_langtag. exists t. exact T. }
    destruct (LangTag_not_normal s NN) as (L1 & L2 & L3 & L4 & L5 & L6 & _).
    assert (L7 : LangTag_private_use_subtags s = Ret iter_default)
      by (unfold LangTag_private_use_subtags; rewrite L6; reflexivity).
    rewrite L1, L2, L3, L4, L5, L6, L7. split; [eexists; reflexivity|].
    do 6 (split; [split; [discriminate|intros (t & T & _); destruct (NT t T)]|]).
    intros _. repeat split; eexists; reflexivity.
Qed.
Print Assumptions C16_refuted.
Print Assumptions C16_exact_partial.
Example C16_case : accepted LangTagT full_text /\ accepted LangTagT (bs "i-lux") /\
  accepted LangTagT private_text_sample /\ ends_by_variants private_tag_sample = false.
Proof. repeat split; vm_compute; reflexivity. Qed.

(** * C17: false. *)

Definition C17_statement : Prop := forall s t, is_tag s t -> reassemble s = Ret s.
Theorem C17_refuted : ~ C17_statement.
Proof. intros H. specialize (H _ _ full_is_tag). vm_compute in H. discriminate. Qed.

(** The accessors give back the tag when it has a private use sequence and no extension.  With extensions, the
    accessors other than [private_use] give back a tag without private use; and leaving [extensions] out, they
    give back every tag that does not end by its region.  Otherwise some accessor panics. *)
Theorem C17_partial : forall s t, is_tag s t ->
  (t_extensions t = [] -> t_private t <> None -> reassemble s = Ret s) /\
  (t_extensions t <> [] -> t_private t = None -> reassemble_to_extensions s = Ret s) /\
  (ends_by_region t = false -> reassemble_no_extensions s = Ret s) /\
  (ends_by_variants t = true -> reassemble s = Panic).
Proof.
  intros s t T. assert (O : tag_ok t = true) by apply T. assert (E : s = tag_text t) by apply T.
  pose proof (language_exact s t T) as L1. pose proof (script_exact s t T) as L2.
  pose proof (region_exact s t T) as L3. pose proof (variants_exact s t T) as L4.
  pose proof (extensions_exact s t T) as L5. pose proof (private_use_exact s t T) as L6.
  destruct (ends_chain t) as (E1 & E2 & E3).
  assert (D : ends_by_variants t = false ->
    ends_by_region t = false /\ ends_by_script t = false /\ ends_by_language t = false).
  { intros V. pose proof (contra _ _ E3 V) as R. pose proof (contra _ _ E2 R) as C. pose proof (contra _ _ E1 C). auto. }
  split; [|split; [|split]].
  - intros X P. assert (V : ends_by_variants t = false).
    { unfold ends_by_variants. destruct (t_private t); [rewrite Bool.andb_false_r; reflexivity|congruence]. }
    destruct (D V) as (R & C & L). unfold reassemble.
    rewrite L1, L2, L3, L4, L5, (private_use_no_ext s t T X R), L, C, R, V. cbn [bind].
    rewrite (reassemble_spec t O), E. reflexivity.
  - intros X P. assert (V : ends_by_variants t = false).
    { unfold ends_by_variants. destruct (t_extensions t); [congruence|reflexivity]. }
    destruct (D V) as (R & C & L). unfold reassemble_to_extensions.
    rewrite L1, L2, L3, L4, L5, L, C, R, V. cbn [bind]. f_equal. rewrite E.
    rewrite <- (reassemble_rest t O). f_equal. unfold rest_subtags. rewrite P. cbn [opt_parts].
    rewrite app_nil_r. reflexivity.
  - intros R. assert (CL : ends_by_script t = false /\ ends_by_language t = false).
    { pose proof (contra _ _ E2 R) as C. pose proof (contra _ _ E1 C). auto. }
    destruct CL as [C L]. unfold reassemble_no_extensions. rewrite L1, L2, L3, L4, L6, L, C, R. cbn [bind].
    f_equal. rewrite E, <- (reassemble_rest t O). destruct (ends_by_variants t) eqn:V; [|reflexivity].
    cbn [or_empty]. do 2 f_equal. unfold ends_by_variants in V. apply Bool.andb_true_iff in V as [V W].
    apply empty_nil in V. apply absent_none in W. unfold rest_subtags. rewrite V, W. reflexivity.
  - intros V. unfold reassemble. rewrite L1, L2, L3, L4, L5, V. cbn [bind].
    destruct (ends_by_language t), (ends_by_script t), (ends_by_region t); reflexivity.
Qed.
(** Exactly when all six give back the tag. *)
Theorem C17_exact : forall s t, is_tag s t ->
  (reassemble s = Ret s <-> t_extensions t = [] /\ t_private t <> None).
Proof.
  intros s t T. split; [|intros [X P]; exact (proj1 (C17_partial s t T) X P)]. intros H.
  assert (O : tag_ok t = true) by apply T. assert (E : s = tag_text t) by apply T.
  destruct (ends_by_variants t) eqn:V.
  { rewrite (proj2 (proj2 (proj2 (C17_partial s t T))) V) in H. discriminate. }
  destruct (t_extensions t) as [|e l] eqn:X.
  { split; [reflexivity|]. intros P. unfold ends_by_variants in V. rewrite X, P in V. discriminate. }
  exfalso. destruct (ends_chain t) as (E1 & E2 & E3). pose proof (contra _ _ E3 V) as R.
  pose proof (contra _ _ E2 R) as C.
  pose proof (contra _ _ E1 C) as L.
  unfold reassemble in H.
  rewrite (language_exact s t T), (script_exact s t T), (region_exact s t T), (variants_exact s t T),
    (extensions_exact s t T), (private_use_exact s t T), L, C, R, V in H. cbn [bind or_empty] in H.
  injection H as H. rewrite E in H. rewrite <- (reassemble_rest t O) in H. apply (f_equal (@length byte)) in H.
  pose proof (tag_segs t O) as G. cbn [forallb] in G. rewrite !Bool.andb_true_iff in G.
  destruct G as (G1 & G2 & G3 & G4 & G5 & G6 & _).
  assert (G7 : forallb seg_ok (rest_subtags t) = true) by (unfold rest_subtags; rewrite forallb_app, G5, G6; reflexivity).
  rewrite !or_empty_join in H. unfold language_text, extensions_text in H.
  change (join_present (map join [language_subtags (t_language t); opt_list (t_script t); opt_list (t_region t);
     t_variants t; flat_map extension_parts (t_extensions t); rest_subtags t])) with
    (join_present [join (language_subtags (t_language t)); join (opt_list (t_script t)); join (opt_list (t_region t));
     join (t_variants t); join (flat_map extension_parts (t_extensions t)); join (rest_subtags t)]) in H.
  pose proof (join_present_app [language_subtags (t_language t); opt_list (t_script t); opt_list (t_region t);
     t_variants t; flat_map extension_parts (t_extensions t); rest_subtags t]) as J6.
  pose proof (join_present_app [language_subtags (t_language t); opt_list (t_script t); opt_list (t_region t);
     t_variants t; rest_subtags t]) as J5.
  cbn [map] in J5, J6. rewrite J5, J6 in H by (cbn [forallb]; rewrite ?G1, ?G2, ?G3, ?G4, ?G5, ?G7; reflexivity).
  cbn [concat] in H. rewrite !app_nil_r in H.
  rewrite X in H.
  assert (LT : forall p m q, p <> [] -> m <> [] -> length (join (p ++ q)) < length (join (p ++ m ++ q))).
  { intros p m q Hp Hm. destruct p as [|x p]; [congruence|]. 
    change ((x :: p) ++ q) with (x :: (p ++ q)). change ((x :: p) ++ m ++ q) with (x :: (p ++ m ++ q)).
    rewrite !join_cons, !app_length, !dtail_app, !app_length.
    assert (1 <= length (dtail m)) by (destruct m; [congruence|unfold dtail; cbn [flat_map app length]; lia]). lia. }
  rewrite !app_assoc in H.
  match type of H with length (join (((((?a ++ ?b) ++ ?c) ++ ?d) ++ ?m) ++ ?q)) = _ =>
    pose proof (LT (((a ++ b) ++ c) ++ d) m q) as Z end.
  rewrite !app_assoc in Z. rewrite H in Z. specialize (Z ltac:(discriminate) ltac:(discriminate)). lia.
Qed.
Print Assumptions C17_refuted.
Print Assumptions C17_partial.
Print Assumptions C17_exact.
Example C17_case : reassemble private_text_sample = Ret private_text_sample /\
  reassemble_to_extensions ext_text_sample = Ret ext_text_sample /\
  reassemble_no_extensions full_text = Ret full_text.
Proof. repeat split; vm_compute; reflexivity. Qed.

(** * C35 *)

Theorem C35_accessors_case : forall s s' t t', is_tag s t -> is_tag s' t' -> same_ci s s' ->
  same_outcome same_ci (NormalLangTag_language s) (NormalLangTag_language s') /\
  same_outcome same_opt (NormalLangTag_script s) (NormalLangTag_script s') /\
  same_outcome same_opt (NormalLangTag_region s) (NormalLangTag_region s') /\
  same_outcome same_ci (NormalLangTag_variants s) (NormalLangTag_variants s') /\
  same_outcome same_ci (NormalLangTag_extensions s) (NormalLangTag_extensions s') /\
  same_outcome same_opt (NormalLangTag_private_use s) (NormalLangTag_private_use s').
Proof. exact accessors_case. Qed.
Print Assumptions C35_accessors_case.
Example C35_case : same_ci (bs "SL-CMN-latn-it-ROZAJ-1996-A-FOO-B-BAR-BAZ-X-PRIV-1") full_text /\
  accepted NormalLangTagT (bs "SL-CMN-latn-it-ROZAJ-1996-A-FOO-B-BAR-BAZ-X-PRIV-1").
Proof. split; vm_compute; reflexivity. Qed.

(** * C36 *)

Theorem C36_positions : forall s t, is_tag s t ->
  (forall i x, component_value i s = Ret (Some x) ->
     exists a b, component_range i s = Ret (Some (a, b)) /\ x = sub s a b /\ aligned s a b) /\
  (forall i j a b c d, i < j < 5 -> component_range i s = Ret (Some (a, b)) -> component_range j s = Ret (Some (c, d)) ->
     b < c).
Proof. exact positions. Qed.
(** Where exactly the slices are; an empty list is where it would be inserted. *)
Theorem C36_ranges : forall s t, is_tag s t ->
  let upto c := length (tag_text (cut_at c t)) in
  let after_variants := AfterVariants (length (t_variants t)) in
  let after_extensions := AfterExtensions (length (t_extensions t)) in
  language_end s = Ret (upto AfterLanguage) /\
  script_range s = (if ends_by_language t then Panic else
    Ret (if absent (t_script t) then Err (upto AfterLanguage) else Ok (upto AfterLanguage + 1, upto AfterScript))) /\
  region_range s = (if ends_by_script t then Panic else
    Ret (if absent (t_region t) then Err (upto AfterScript) else Ok (upto AfterScript + 1, upto AfterRegion))) /\
  variants_range s = (if ends_by_region t then Panic else
    Ret (if empty (t_variants t) then (upto AfterRegion, upto AfterRegion)
         else (upto AfterRegion + 1, upto after_variants))) /\
  extensions_range s = (if ends_by_variants t then Panic else
    Ret (if empty (t_extensions t) then (upto after_variants, upto after_variants)
         else (upto after_variants + 1, upto after_extensions))) /\
  private_use_offset s = (if ends_by_region t then Panic else
    Ret (if ends_by_variants t then None else Some (upto after_variants + 1))).
Proof. exact ranges_exact. Qed.
Print Assumptions C36_positions.
Print Assumptions C36_ranges.
Example C36_case : map (fun i => component_value i full_text) [0; 1; 2; 3; 4] =
  [Ret (Some (bs "sl-cmn")); Ret (Some (bs "Latn")); Ret (Some (bs "IT")); Ret (Some (bs "rozaj-1996"));
   Ret (Some (bs "a-foo-b-bar-Baz"))].
Proof. vm_compute. reflexivity. Qed.
Example C36_ranges_case : variants_range (bs "sl-Latn-a-foo") = Ret (7, 7) /\ extensions_range (bs "sl-Latn-a-foo") = Ret (8, 13) /\
  map (fun i => component_range i full_text) [0; 1; 2; 3; 4] =
  [Ret (Some (0, 6)); Ret (Some (7, 11)); Ret (Some (12, 14)); Ret (Some (15, 25)); Ret (Some (26, 41))].
Proof. repeat split; vm_compute; reflexivity. Qed.

(** * C38 *)

Theorem C38_cut : forall s t c, is_tag s t ->
  is_tag (tag_text (cut_at c t)) (cut_at c t) /\
  accepted NormalLangTagT (tag_text (cut_at c t)) /\ prefix (tag_text (cut_at c t)) s /\
  NormalLangTag_language (tag_text (cut_at c t)) = NormalLangTag_language s.
Proof. exact cut_spec. Qed.
(** The components that are kept are read unchanged, wherever both readings return. *)
Theorem C38_kept : forall s t c, is_tag s t -> let s' := tag_text (cut_at c t) in let t' := cut_at c t in
  NormalLangTag_script s' = (if ends_by_language t' then Panic else Ret (t_script t')) /\
  NormalLangTag_region s' = (if ends_by_script t' then Panic else Ret (t_region t')) /\
  NormalLangTag_variants s' = (if ends_by_region t' then Panic else Ret (join (t_variants t'))) /\
  NormalLangTag_extensions s' = (if ends_by_variants t' then Panic else Ret (extensions_text (t_extensions t'))) /\
  (t_script t' = t_script t \/ t_script t' = None) /\ (t_region t' = t_region t \/ t_region t' = None) /\
  (exists k, t_variants t' = firstn k (t_variants t)) /\ exists k, t_extensions t' = firstn k (t_extensions t).
Proof.
  intros s t c T s' t'. pose proof (proj1 (cut_spec s t c T)) as U. change (is_tag s' t') in U.
  rewrite (script_exact s' t' U), (region_exact s' t' U), (variants_exact s' t' U), (extensions_exact s' t' U).
  do 4 (split; [reflexivity|]). unfold t'. destruct c; cbn; repeat split; auto;
    first [exists 0; reflexivity | eexists; reflexivity | eexists; symmetry; apply firstn_all].
Qed.
(** A private use sequence alone is a tag, of kind private use. *)
Theorem C38_private : forall s t p, is_tag s t -> t_private t = Some p ->
  accepted LangTagT (private_text p) /\ LangTag_kind (private_text p) = Ret KPrivateUse.
Proof.
  intros s t p T P. destruct T as [T _]. unfold tag_ok in T. rewrite P in T. apply Bool.andb_true_iff in T as [_ T].
  cbn [opt_ok] in T. pose proof (private_accepted p T) as A. split; [exact A|].
  assert (M : matches abnf_privateuse (private_text p)).
  { destruct (proj1 productions_decided (private_text p)) as [[_ Z]|[Z _]]; [exact Z|].
    assert (Y : accepted PrivateUseT (private_text p)) by (apply accepted_private; exists p; auto). pose proof (eq_trans (eq_sym Y) Z) as Q. discriminate. }
  destruct (classification _ A) as [(_ & X & _)|[(_ & _ & _ & _ & K)|(_ & X & _)]]; [tauto|exact K|tauto].
Qed.
Print Assumptions C38_cut.
Print Assumptions C38_kept.
Print Assumptions C38_private.
Example C38_case : tag_text (cut_at (AfterVariants 1) full_tag) = bs "sl-cmn-Latn-IT-rozaj" /\
  tag_text (cut_at (AfterExtensions 1) full_tag) = bs "sl-cmn-Latn-IT-rozaj-1996-a-foo" /\
  NormalLangTag_variants (tag_text (cut_at (AfterExtensions 1) full_tag)) = Ret (bs "rozaj-1996").
Proof. repeat split; vm_compute; reflexivity. Qed.

(** * C39 *)

Theorem C39_composition : forall l c r v e p,
  accepted LanguageT l -> accepted_opt ScriptT c -> accepted_opt RegionT r -> accepted VariantsT v ->
  accepted ExtensionsT e -> accepted_opt PrivateUseT p ->
  let s := join_present [l; or_empty c; or_empty r; v; e; or_empty p] in
  accepted NormalLangTagT s /\
  NormalLangTag_language s = Ret l /\
  NormalLangTag_script s = (if nonempty (join_present [or_empty c; or_empty r; v; e; or_empty p]) then Ret c else Panic) /\
  NormalLangTag_region s = (if nonempty (join_present [or_empty r; v; e; or_empty p]) then Ret r else Panic) /\
  NormalLangTag_variants s = (if nonempty (join_present [v; e; or_empty p]) then Ret v else Panic) /\
  NormalLangTag_extensions s = (if nonempty (join_present [e; or_empty p]) then Ret e else Panic) /\
  (e = [] -> NormalLangTag_private_use s = if nonempty (join_present [v; or_empty p]) then Ret p else Panic) /\
  exists t, is_tag s t /\ language_text (t_language t) = l /\ t_script t = c /\ t_region t = r /\
    join (t_variants t) = v /\ extensions_text (t_extensions t) = e /\ option_map private_text (t_private t) = p.
Proof. exact composition_spec. Qed.
Print Assumptions C39_composition.
Example C39_case : accepted LanguageT (bs "sl-cmn") /\ accepted_opt ScriptT (Some (bs "Latn")) /\
  accepted_opt RegionT None /\ accepted VariantsT (bs "rozaj-1996") /\ accepted ExtensionsT (bs "a-foo-b-bar") /\
  accepted_opt PrivateUseT (Some (bs "x-y")) /\
  join_present [bs "sl-cmn"; or_empty (Some (bs "Latn")); or_empty None; bs "rozaj-1996"; bs "a-foo-b-bar";
                or_empty (Some (bs "x-y"))] = bs "sl-cmn-Latn-rozaj-1996-a-foo-b-bar-x-y".
Proof. repeat split; vm_compute; reflexivity. Qed.

(** * C46 *)

Theorem C46_langtag_case : forall s s', accepted LangTagT s -> same_ci s s' ->
  accepted LangTagT s' /\
  LangTag_kind s = LangTag_kind s' /\
  LangTag_is_normal s = LangTag_is_normal s' /\ LangTag_is_private_use s = LangTag_is_private_use s' /\
  LangTag_is_grandfathered s = LangTag_is_grandfathered s' /\
  LangTag_as_grandfathered s = LangTag_as_grandfathered s' /\
  same_outcome same_opt (LangTag_as_normal s) (LangTag_as_normal s') /\
  same_outcome same_opt (LangTag_as_private_use s) (LangTag_as_private_use s') /\
  same_outcome same_typed (LangTag_as_typed s) (LangTag_as_typed s') /\
  same_outcome same_opt (LangTag_language s) (LangTag_language s') /\
  same_outcome same_opt (LangTag_script s) (LangTag_script s') /\
  same_outcome same_opt (LangTag_region s) (LangTag_region s') /\
  same_outcome same_ci (LangTag_variants s) (LangTag_variants s') /\
  same_outcome same_ci (LangTag_extensions s) (LangTag_extensions s') /\
  same_outcome same_opt (LangTag_private_use s) (LangTag_private_use s') /\
  forall k, same_outcome (Forall2 same_opt)
    (let! it := LangTag_private_use_subtags s in calls PrivateUseIter_next k it)
    (let! it := LangTag_private_use_subtags s' in calls PrivateUseIter_next k it).
Proof. exact langtag_case. Qed.
Print Assumptions C46_langtag_case.
Example C46_case : accepted LangTagT (bs "ZH-min-NAN") /\ same_ci (bs "ZH-min-NAN") (bs "zh-min-nan") /\
  LangTag_as_grandfathered (bs "ZH-min-NAN") = Ret (Some ZhMinNan).
Proof. repeat split; vm_compute; reflexivity. Qed.

(** * C49: a component read as a tag of its own *)

(** [language] is a projection: the language of a tag is itself a normal tag, whose language is itself. *)
Theorem C49_language_idempotent : forall s t l, is_tag s t -> NormalLangTag_language s = Ret l ->
  accepted NormalLangTagT l /\ NormalLangTag_language l = Ret l /\ LangTag_kind l = Ret KNormal /\
  NormalLangTag_script l = Panic.
Proof.
  intros s t l T E. rewrite (language_exact s t T) in E. injection E as <-.
  assert (L : language_ok (t_language t) = true).
  { destruct T as [T _]. unfold tag_ok in T. rewrite !Bool.andb_true_iff in T. tauto. }
  pose proof (language_only _ L) as U. pose proof (is_tag_accepted _ _ U) as A. split; [exact A|].
  split; [exact (language_exact _ _ U)|]. split; [|exact (script_exact _ _ U)].
  assert (M : matches abnf_langtag (language_text (t_language t))) by (apply matches_langtag; eauto).
  destruct (classification _ (accepted_normal_tag _ A)) as [(_ & _ & _ & _ & K)|[(X & _)|(X & _)]];
    [exact K|tauto|tauto].
Qed.
Print Assumptions C49_language_idempotent.
Example C49_case : is_tag full_text full_tag /\ NormalLangTag_language (bs "sl-cmn") = Ret (bs "sl-cmn").
Proof. split; [exact full_is_tag|vm_compute; reflexivity]. Qed.

(** * C50: RFC 4647 lookup *)

Theorem C50_truncate : forall s t, is_tag s t ->
  (lookup_truncate (tag_subtags t) = [] <-> length (tag_subtags t) = 1) /\
  (lookup_truncate (tag_subtags t) <> [] ->
   accepted NormalLangTagT (join (lookup_truncate (tag_subtags t))) /\
   length (lookup_truncate (tag_subtags t)) < length (tag_subtags t) /\
   exists l, l <> [] /\ tag_subtags t = lookup_truncate (tag_subtags t) ++ l).
Proof. exact truncate_spec. Qed.
Print Assumptions C50_truncate.
Example C50_case : join (lookup_truncate (tag_subtags ext_tag_sample)) = bs "fr-FR-a-ext-b-ext1" /\
  join (lookup_truncate (lookup_truncate (tag_subtags ext_tag_sample))) = bs "fr-FR-a-ext" /\
  join (lookup_truncate (lookup_truncate (lookup_truncate (tag_subtags ext_tag_sample)))) = bs "fr-FR".
Proof. repeat split; vm_compute; reflexivity. Qed.
