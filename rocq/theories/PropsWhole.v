(** Properties C53-C56: the repaired accessors, and whole tags. *)
From Verif Require Import Base GrammarRs Validate Utils Grandfathered Normal LangTag Newtypes Derived Spec Observe
  Case Parts Order Values More Repair Whole Samples.

(** * C53: with the two changes of Repair.v, C10-C17 hold as first stated. *)

Theorem C53_repaired : forall s t, is_tag s t ->
  repaired_language s = Ret (language_text (t_language t)) /\
  repaired_script s = Ret (t_script t) /\
  repaired_region s = Ret (t_region t) /\
  repaired_variants s = Ret (join (t_variants t)) /\
  repaired_extensions s = Ret (extensions_text (t_extensions t)) /\
  repaired_private_use s = Ret (option_map private_text (t_private t)) /\
  (let! l := repaired_language s in let! c := repaired_script s in let! r := repaired_region s in
   let! v := repaired_variants s in let! e := repaired_extensions s in let! p := repaired_private_use s in
   Ret (join_present [l; or_empty c; or_empty r; v; e; or_empty p])) = Ret s.
Proof.
  intros s t [O ->]. rewrite (repaired_language_spec t O), (repaired_script_spec t O), (repaired_region_spec t O),
    (repaired_variants_spec t O), (repaired_extensions_spec t O), (repaired_private_use_spec t O).
  repeat split. cbn [bind]. rewrite (reassemble_spec t O). reflexivity.
Qed.
(** On any string, wherever the code returns, the repaired code returns the same; but for the private use
    subtags, where this is so on the tags without extensions. *)
Theorem C53_conservative : forall s,
  (forall x, NormalLangTag_language s = Ret x -> repaired_language s = Ret x) /\
  (forall x, NormalLangTag_script s = Ret x -> repaired_script s = Ret x) /\
  (forall x, NormalLangTag_region s = Ret x -> repaired_region s = Ret x) /\
  (forall x, NormalLangTag_variants s = Ret x -> repaired_variants s = Ret x) /\
  (forall x, NormalLangTag_extensions s = Ret x -> repaired_extensions s = Ret x) /\
  (forall t x, is_tag s t -> t_extensions t = [] ->
     NormalLangTag_private_use s = Ret x -> repaired_private_use s = Ret x).
Proof.
  intros s. destruct (repaired_refines s) as (A & B & C & D & E). do 5 (split; [assumption|]).
  intros t x T X P. destruct (ends_by_region t) eqn:R.
  - rewrite (private_use_exact s t T), R in P. discriminate P.
  - rewrite (private_use_no_ext s t T X R) in P. rewrite <- P. destruct T as [O ->].
    apply repaired_private_use_spec, O.
Qed.
(** The repair changes nothing else: undone, the definitions are those of the code. *)
Theorem C53_only_change : forall s,
  language_with find_list_end s = NormalLangTag_language s /\
  script_with find_list_end s = NormalLangTag_script s /\
  region_with find_list_end s = NormalLangTag_region s /\
  variants_with find_list_end s = NormalLangTag_variants s /\
  extensions_with find_list_end s = NormalLangTag_extensions s /\
  private_use_with (variants_range_with find_list_end) s = NormalLangTag_private_use s.
Proof. exact with_original. Qed.
Print Assumptions C53_repaired.
Print Assumptions C53_conservative.
Print Assumptions C53_only_change.
Example C53_case : is_tag full_text full_tag /\ repaired_private_use full_text = Ret (Some (bs "x-priv-1")) /\
  NormalLangTag_private_use full_text = Ret (Some (bs "a-foo-b-bar-Baz-x-priv-1")) /\
  is_tag lone_text lone_tag /\ repaired_script lone_text = Ret None /\ NormalLangTag_script lone_text = Panic /\
  NormalLangTag_region short_text = Ret (Some (bs "TW")) /\ repaired_region short_text = Ret (Some (bs "TW")).
Proof.
  split; [exact full_is_tag|]. do 2 (split; [vm_compute; reflexivity|]). split; [exact lone_is_tag|].
  repeat split; vm_compute; reflexivity.
Qed.

(** * C54 *)

Theorem C54_walk_language : forall s t, is_tag s t ->
  exists l, LangTag_language s = Ret (Some l) /\ Language_primary l = l_primary (t_language t) /\
    forall k, calls LanguageExtensionIter_next k (Language_extension_subtags l) =
              Ret (expected_next k (l_extlangs (t_language t))).
Proof. exact walk_language. Qed.
Theorem C54_walk_variants : forall s t, is_tag s t -> ends_by_region t = false ->
  exists v, LangTag_variants s = Ret v /\
    forall ops, calls_de VariantsIter_next VariantsIter_next_back ops (Variants_iter v) =
                Ret (deque_run ops (t_variants t)).
Proof. exact walk_variants. Qed.
Theorem C54_walk_extensions : forall s t, is_tag s t -> ends_by_variants t = false ->
  exists e, LangTag_extensions s = Ret e /\
    (forall k, calls ExtensionsIter_next k (Extensions_iter e) =
               Ret (expected_next k (map extension_text (t_extensions t)))) /\
    (forall c, Extensions_get e c =
               Ret (option_map extension_text (find (fun x => Byte.eqb (e_singleton x) c) (t_extensions t)))) /\
    (forall x, In x (t_extensions t) ->
       Extension_singleton (extension_text x) = Ret (e_singleton x) /\
       forall k, calls ExtensionIter_next k (Extension_iter (extension_text x)) = Ret (expected_next k (e_subtags x))).
Proof. exact walk_extensions. Qed.
Print Assumptions C54_walk_language.
Print Assumptions C54_walk_variants.
Print Assumptions C54_walk_extensions.
Example C54_case : ends_by_region full_tag = false /\ ends_by_variants full_tag = false /\
  (let! v := LangTag_variants full_text in
   calls_de VariantsIter_next VariantsIter_next_back [Back; Back; Front] (Variants_iter v)) =
  Ret [Some (bs "1996"); Some (bs "rozaj"); None] /\
  (let! e := LangTag_extensions full_text in Extensions_get e "b"%byte) = Ret (Some (bs "b-bar-Baz")).
Proof. repeat split; vm_compute; reflexivity. Qed.

(** * C55 *)

Theorem C55_accessors_tell : forall s s' t t' ty, is_tag s t -> is_tag s' t' ->
  (eq_of ty s s' = Ret true <->
   same_outcome same_ci (NormalLangTag_language s) (NormalLangTag_language s') /\
   same_outcome same_opt (NormalLangTag_script s) (NormalLangTag_script s') /\
   same_outcome same_opt (NormalLangTag_region s) (NormalLangTag_region s') /\
   same_outcome same_ci (NormalLangTag_variants s) (NormalLangTag_variants s') /\
   same_outcome same_opt (NormalLangTag_private_use s) (NormalLangTag_private_use s')).
Proof. exact accessors_tell. Qed.
Print Assumptions C55_accessors_tell.
Example C55_case : is_tag (map lower full_text) (Tag (Lang (bs "sl") [bs "cmn"]) (Some (bs "latn")) (Some (bs "it"))
    [bs "rozaj"; bs "1996"] [Ext "a"%byte [bs "foo"]; Ext "b"%byte [bs "bar"; bs "baz"]]
    (Some (Priv "x"%byte [bs "priv"; bs "1"]))) /\
  eq_of LangTagT full_text (map lower full_text) = Ret true /\
  same_outcome same_ci (NormalLangTag_language short_text) (NormalLangTag_language lone_text) = same_ci (bs "zh") (bs "fr").
Proof. split; [split; vm_compute; reflexivity|]. split; vm_compute; reflexivity. Qed.

(** * C56 *)

(** The values that start with [p], up to case, are contiguous in the order, and [p] is the last of them. *)
Theorem C56_prefix_range : forall ty p a b c,
  prefix (map lower p) (map lower a) -> prefix (map lower p) (map lower c) ->
  cmp_of ty a b <> Ret Gt -> cmp_of ty b c <> Ret Gt -> prefix (map lower p) (map lower b).
Proof. intros ty p a b c. apply range_prefix. Qed.
Theorem C56_prefix_last : forall ty p a, prefix (map lower p) (map lower a) -> cmp_of ty a p <> Ret Gt.
Proof. intros ty p a. apply range_last. Qed.
Print Assumptions C56_prefix_range.
Print Assumptions C56_prefix_last.
Example C56_case : cmp_of LangTagT (bs "fr-BE") (bs "FR-ca") = Ret Lt /\ cmp_of LangTagT (bs "FR-ca") (bs "fr-x-a") = Ret Lt /\
  cmp_of LangTagT (bs "fr-x-a") (bs "fr") = Ret Lt /\ cmp_of LangTagT (bs "fr") (bs "fry") = Ret Gt.
Proof. repeat split; vm_compute; reflexivity. Qed.
