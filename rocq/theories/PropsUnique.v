(** Properties C68-C70: decompositions are unique, repeated subtags, and what the documentation says of languages. *)
From Verif Require Import Base GrammarRs Validate Utils Grandfathered Normal LangTag Newtypes Derived Spec Observe
  RegexEquiv Accept AcceptTag Case CaseTag Direct Parse Scan Access Iter Kind Grammar Parts Compose Order Values More
  Samples PropsGrammar PropsAccess PropsIter.

(** * C68: one decomposition only *)

Lemma join_segs_inj l l' : forallb seg_ok l = true -> forallb seg_ok l' = true -> join l = join l' -> l = l'.
Proof.
  assert (N : forall x l, forallb seg_ok (x :: l) = true -> join (x :: l) <> []).
  { clear. intros x l H E. cbn [forallb] in H. apply andb_prop in H as [H _]. apply seg_length in H. rewrite join_cons in E.
    apply app_eq_nil in E as [-> _]. cbn in H. lia. }
  intros L L' E. destruct l as [|x l], l' as [|x' l']; [reflexivity| | |].
  - symmetry in E. now apply N in E.
  - now apply N in E.
  - apply join_inj; auto using segs_dash_free; discriminate.
Qed.

Theorem C68_unique :
  (forall l l', language_ok l = true -> language_ok l' = true -> language_text l = language_text l' -> l = l') /\
  (forall l l', extlangs_ok l = true -> extlangs_ok l' = true -> join l = join l' -> l = l') /\
  (forall l l', variants_ok l = true -> variants_ok l' = true -> join l = join l' -> l = l') /\
  (forall e e', extension_ok e = true -> extension_ok e' = true -> extension_text e = extension_text e' -> e = e') /\
  (forall l l', extensions_ok l = true -> extensions_ok l' = true -> extensions_text l = extensions_text l' -> l = l') /\
  (forall p p', private_ok p = true -> private_ok p' = true -> private_text p = private_text p' -> p = p').
Proof.
  split; [|split; [|split; [|split; [|split]]]].
  - intros [p x] [p' x'] L L' E. apply join_segs_inj in E; auto using segs_language. now injection E as -> ->.
  - intros l l' L L'. apply join_segs_inj; auto using segs_extlangs.
  - intros l l' L L'. apply join_segs_inj; auto using segs_variants.
  - intros [b x] [b' x'] L L' E. apply join_segs_inj in E; auto using segs_extension. now injection E as -> ->.
  - intros l l' L L' E. apply join_segs_inj in E; auto using segs_extensions.
    rewrite <- (group_extensions l L), <- (group_extensions l' L'). congruence.
  - intros [b x] [b' x'] L L' E. apply join_segs_inj in E; auto using segs_private. now injection E as -> ->.
Qed.
(** So the components found by the accessors and iterators are the components. *)
Theorem C68_components :
  (forall l, extensions_ok l = true -> forall k,
     calls ExtensionsIter_next k (Extensions_iter (extensions_text l)) = Ret (expected_next k (map extension_text l))) /\
  (forall l, variants_ok l = true -> forall ops,
     calls_de VariantsIter_next VariantsIter_next_back ops (Variants_iter (join l)) = Ret (deque_run ops l)) /\
  (forall e, extension_ok e = true -> Extension_singleton (extension_text e) = Ret (e_singleton e) /\ forall k,
     calls ExtensionIter_next k (Extension_iter (extension_text e)) = Ret (expected_next k (e_subtags e))) /\
  (forall p, private_ok p = true -> forall k,
     calls PrivateUseIter_next k (PrivateUse_iter (private_text p)) = Ret (expected_next k (p_subtags p))) /\
  (forall l, language_ok l = true -> Language_primary (language_text l) = l_primary l /\
     Language_extension (language_text l) = match l_extlangs l with [] => None | x => Some (join x) end).
Proof.
  destruct C68_unique as (UL & _ & UV & UE & UX & UP). split; [|split; [|split; [|split]]].
  - intros l L k. destruct (C26_extensions_iter (extensions_text l)) as (l' & L' & E & H).
    { apply accepted_extensions. exists l. auto. }
    rewrite (UX l l' L L' E). rewrite <- (UX l l' L L' E) at 1. apply H.
  - intros l L ops. destruct (C23_variants_deque (join l)) as (l' & L' & E & H).
    { apply accepted_variants. exists l. auto. }
    rewrite (UV l l' L L' E). rewrite <- (UV l l' L L' E) at 1. apply H.
  - intros e L. destruct (C25_extension_parts (extension_text e)) as (e' & L' & E & S & _ & H).
    { apply accepted_extension. exists e. auto. }
    pose proof (UE e e' L L' E) as <-. auto.
  - intros p L k. destruct (C30_private_use_iter (private_text p)) as (p' & L' & E & H).
    { apply accepted_private. exists p. auto. }
    pose proof (UP p p' L L' E) as <-. apply H.
  - intros l L. destruct (C31_language_parts (language_text l)) as (l' & L' & E & P & N & S & _).
    { apply accepted_language. exists l. auto. }
    pose proof (UL l l' L L' E) as <-. split; [exact P|]. destruct (l_extlangs l) as [|x xs] eqn:X; [now apply N|now apply S].
Qed.
Print Assumptions C68_unique.
Print Assumptions C68_components.
Example C68_case :
  let l := [Ext "a"%byte [bs "bbb"; bs "c1"]; Ext "u"%byte [bs "co"]; Ext "a"%byte [bs "dd"]] in
  extensions_ok l = true /\ extensions_text l = bs "a-bbb-c1-u-co-a-dd" /\
  calls ExtensionsIter_next 4 (Extensions_iter (bs "a-bbb-c1-u-co-a-dd")) =
  Ret [Some (bs "a-bbb-c1"); Some (bs "u-co"); Some (bs "a-dd"); None] /\
  (* Without the test on sizes the list would not be unique. *)
  extensions_text [Ext "a"%byte [bs "bbb"; bs "c1"; bs "u"; bs "co"]; Ext "a"%byte [bs "dd"]] = bs "a-bbb-c1-u-co-a-dd".
Proof. vm_compute. auto 10. Qed.

(** * C69: repeated singletons *)

(** Every extension of the list is the one its singleton gets. *)
Definition C69_statement : Prop := forall l e, extensions_ok l = true -> In e l ->
  Extensions_get (extensions_text l) (e_singleton e) = Ret (Some (extension_text e)).
Theorem C69_refuted : ~ C69_statement.
Proof.
  intros H. specialize (H [Ext "a"%byte [bs "bb"]; Ext "a"%byte [bs "cc"]] (Ext "a"%byte [bs "cc"]) eq_refl
    (or_intror (or_introl eq_refl))). vm_compute in H. discriminate.
Qed.
(** Missing: lists with a repeated singleton. For the others it holds, and only for them (an extension repeated as
    it is counts once); the list has all its extensions got exactly when equal singletons mean equal extensions. *)
Theorem C69_exact_partial : forall l, extensions_ok l = true ->
  ((forall e, In e l -> Extensions_get (extensions_text l) (e_singleton e) = Ret (Some (extension_text e))) <->
   (forall e e', In e l -> In e' l -> e_singleton e = e_singleton e' -> e = e')).
Proof.
  intros l L. pose proof C68_unique as (_ & _ & _ & UE & _). split.
  - intros H e e' I I' E. pose proof (H e I) as A. rewrite E, (H e' I') in A. injection A as A.
    apply UE; [exact (in_forallb _ _ _ L I)|exact (in_forallb _ _ _ L I')|congruence].
  - intros H e I. rewrite Extensions_get_spec by exact L. destruct (find _ l) as [e'|] eqn:F.
    + apply find_some in F as [I' B]. apply beq_true in B. cbn. now rewrite (H e' e I' I B).
    + exfalso. apply (find_none _ _ F) in I. unfold beq in I. now rewrite Strings.Byte.byte_dec_lb in I.
Qed.
(** On tags: an accepted tag may repeat a singleton, and then the later extensions are in [extensions] but no [get]
    gives them. *)
Theorem C69_tags : forall s t, is_tag s t ->
  ((forall e, In e (t_extensions t) ->
      (let! x := NormalLangTag_extensions s in Extensions_get x (e_singleton e)) = Ret (Some (extension_text e))) <->
   (forall e e', In e (t_extensions t) -> In e' (t_extensions t) -> e_singleton e = e_singleton e' -> e = e')).
Proof.
  intros s t T. pose proof (C13_extensions_partial s t T) as (E & _).
  destruct (t_extensions t) as [|e l] eqn:X; [split; contradiction|].
  assert (B : ends_by_variants t = false) by (unfold ends_by_variants; now rewrite X, ?andb_false_r).
  rewrite (E B). cbn [bind]. apply C69_exact_partial. rewrite <- X. apply (tag_ok_parts t), T.
Qed.
Print Assumptions C69_refuted.
Print Assumptions C69_exact_partial.
Print Assumptions C69_tags.
Example C69_case :
  new Langtag (bs "fr-a-bb-a-cc") = Ret (Ok (bs "fr-a-bb-a-cc")) /\
  NormalLangTag_extensions (bs "fr-a-bb-a-cc") = Ret (bs "a-bb-a-cc") /\
  Extensions_get (bs "a-bb-a-cc") "a"%byte = Ret (Some (bs "a-bb")) /\
  calls ExtensionsIter_next 2 (Extensions_iter (bs "a-bb-a-cc")) = Ret [Some (bs "a-bb"); Some (bs "a-cc")] /\
  new Langtag (bs "sl-rozaj-rozaj") = Ret (Ok (bs "sl-rozaj-rozaj")).
Proof. vm_compute. auto 10. Qed.

(** * C70: what the documentation says of languages *)

Lemma regular_normal s : one_of regular_tags s -> accepted NormalLangTagT s.
Proof.
  intros (g & I & C). apply (accepted_ci NormalLangTagT s (bs g) C). revert I. clear.
  repeat (intros [<-|I]; [vm_compute; reflexivity|revert I]). intros [].
Qed.

(** "Only normal language tags and regular grandfathered tags have language subtags" (lib.rs:85-86). *)
Theorem C70_language : forall s, accepted LangTagT s ->
  ((exists l, LangTag_language s = Ret (Some l)) <-> accepted NormalLangTagT s \/ one_of regular_tags s) /\
  (LangTag_language s = Ret None <-> accepted PrivateUseT s \/ one_of irregular_tags s) /\
  (one_of regular_tags s -> accepted NormalLangTagT s).
Proof.
  intros s A. assert (Y : accepted NormalLangTagT s -> exists l, LangTag_language s = Ret (Some l)).
  { intros N. apply accepted_normal in N as (t & T). exists (language_text (t_language t)). apply (C09_language s t T). }
  assert (Z : accepted PrivateUseT s \/ one_of irregular_tags s -> LangTag_language s = Ret None).
  { intros P. apply C09_language_none. split; [exact A|]. intros t T.
    assert (N : accepted NormalLangTagT s) by (apply accepted_normal; now exists t).
    destruct (classification s A) as [(_ & B & C & _)|[(B & _)|(B & _)]];
      [|apply B, matches_langtag; now exists t..].
    destruct P as [P|P]; [|contradiction]. apply B. apply accepted_private in P. now apply matches_privateuse. }
  pose proof (tag_cases s A) as K. split; [|split].
  - split.
    + intros (l & E). destruct K as [K|K]; [now left|]. rewrite Z in E by exact K. discriminate.
    + intros [N|R]; [exact (Y N)|]. exact (Y (regular_normal s R)).
  - split; [|exact Z]. intros E. destruct K as [K|K]; [|exact K]. destruct (Y K) as (l & F). congruence.
  - apply regular_normal.
Qed.

(** "The primary language subtag is the first subtag in a language tag" (language/mod.rs:31), "Extended language
    subtags are only present when the primary language subtag length is 2 or 3" (language/mod.rs:49-50). *)
Theorem C70_subtags : forall s t, is_tag s t -> exists l, LangTag_language s = Ret (Some l) /\
  Language_primary l = hd [] (tag_subtags t) /\
  (Language_extension l <> None -> length (Language_primary l) = 2 \/ length (Language_primary l) = 3) /\
  (forall x, Language_extension l = Some x -> accepted LanguageExtensionT x) /\
  (4 <= length (Language_primary l) -> l = Language_primary l).
Proof.
  intros s t T. exists (language_text (t_language t)). split; [apply (C09_language s t T)|].
  assert (L : language_ok (t_language t) = true) by (apply (tag_ok_parts t), T).
  destruct C68_components as (_ & _ & _ & _ & H). destruct (H _ L) as [P X]. clear H. rewrite P, X. clear P X.
  split; [reflexivity|]. unfold language_ok in L. destruct (t_language t) as [p x]. cbn [l_primary l_extlangs] in *.
  apply orb_prop in L as [L|L].
  - apply andb_prop in L as [L X]. apply andb_prop in L as [L N]. apply sized_spec in L as [L _].
    split; [intros _; lia|]. split; [|intros; lia]. destruct x as [|a x]; [discriminate|]. intros y [= <-].
    apply accepted_extlang. exists (a :: x). split; [|reflexivity]. unfold extlangs_ok. now rewrite N, X.
  - apply andb_prop in L as [L X]. apply sized_spec in L as [L _]. destruct x; [|discriminate].
    split; [congruence|]. split; [discriminate|reflexivity].
Qed.
Print Assumptions C70_language.
Print Assumptions C70_subtags.
Example C70_case :
  LangTag_language (bs "zh-min-nan") = Ret (Some (bs "zh-min-nan")) /\
  LangTag_language (bs "art-lojban") = Ret (Some (bs "art")) /\
  LangTag_language (bs "i-klingon") = Ret None /\ LangTag_language (bs "X-fr") = Ret None /\
  LangTag_language (bs "abcd-Latn") = Ret (Some (bs "abcd")) /\ Language_extension (bs "abcd") = None /\
  (* Four letters and an extended language is not a language. *)
  new Langtag (bs "abcd-abc") = Ret (Err (bs "abcd-abc")).
Proof. vm_compute. auto 10. Qed.
