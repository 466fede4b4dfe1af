(** Properties C59-C64, stated on the text of the Rust files: what running it gives. *)
From Verif Require Import Base GrammarRs Validate Utils Grandfathered Normal LangTag Newtypes Derived Spec Observe
  Grammar Abnf AbnfText AbnfEquiv Accept Case Parse Access Iter Kind Parts Order Values More Samples
  PropsFile PropsGrammar PropsAccess PropsIter PropsOrder.
From Verif Require Import RustText RustSyntax RustEval RustProgram RustRefine RustGrammar RustValidate RustNormal RustAccess
  RustTags RustLib RustSays.

(** * C59: the model is what the text does *)

(** The text of each function, run on values of the types of its parameters, gives what the model says. *)
Theorem C59_runs : forall f args r, says f args r -> runs f args r.
Proof. exact says_runs. Qed.
(** The files can be read; they hold 225 functions and the model says what each does. *)
Theorem C59_every_function : exists P, load files (Program [] [] [] [] []) = Some P /\ length (fns P) = 225 /\
  forall e, In e (fns P) -> exists f args r, says f args r /\ resolve P f = TgFn (en_type e) (en_fn e).
Proof.
  exists crate. split; [exact crate_is_the_source|]. split; [vm_compute; reflexivity|exact every_function].
Qed.
(** There is one result. *)
Theorem C59_deterministic : forall f args r r', runs f args r -> runs f args r' -> r = r'.
Proof. exact runs_unique. Qed.
Print Assumptions C59_runs.
Print Assumptions C59_every_function.
Print Assumptions C59_deterministic.
(** The interpreter run on the text, for some arguments. *)
Example C59_case :
  call 1000 crate 200 (VPath ["LangTag"; "new"]) [VStr (bs "fr-Latn")] = Ret (okv (vtag LangTagT (bs "fr-Latn")), []) /\
  call 1000 crate 200 (VPath ["LangTag"; "new"]) [VStr (bs "a-DE")] =
    Ret (errv (tuple1 "InvalidLangTag" (VStr (bs "a-DE"))), []) /\
  call 1000 crate 400 (VPath ["NormalLangTag"; "region"]) [vtag NormalLangTagT (bs "sr-Latn-RS-x-a")] =
    Ret (some (vtag RegionT (bs "RS")), []) /\
  call 1000 crate 400 (VPath ["NormalLangTag"; "script"]) [vtag NormalLangTagT (bs "fr")] = Panic.
Proof. repeat split; vm_compute; reflexivity. Qed.

(** * C60: the constructors accept what grammar.abnf derives *)

(** The rule of grammar.abnf that each type is for. *)
Definition rule_name (ty : newtype) : string :=
  match ty with
  | LangTagT => "Language-Tag"
  | PrivateUseT => "privateuse"
  | PrivateUseSubtagT => "privateuse-subtag"
  | NormalLangTagT => "langtag"
  | LanguageT => "language"
  | PrimaryLanguageT => "primary"
  | LanguageExtensionT => "extlang"
  | ExtendedLangTagT => "extlang-tag"
  | ScriptT => "script"
  | RegionT => "region"
  | VariantT => "variant"
  | VariantsT => "variants"
  | ExtensionT => "extension"
  | ExtensionSubtagT => "extension-subtag"
  | ExtensionsT => "extensions"
  end.
Lemma rules_decided ty : decides ty (derived_from grammar_abnf (rule_name ty)).
Proof.
  pose proof C52_productions_file as H. destruct ty; cbn [rule_name]; [exact C52_langtag_file|..]; tauto.
Qed.
(** Running the text of the Rust files agrees with the text of grammar.abnf, for [str] and for [[u8]]. *)
Theorem C60_new : forall ty s w, w = VStr \/ w = VBytes ->
  (derived_from grammar_abnf (rule_name ty) s -> runs [type_of ty; "new"] [w s] (Ret (okv (vtag ty s), []))) /\
  (~ derived_from grammar_abnf (rule_name ty) s ->
   runs [type_of ty; "new"] [w s] (Ret (errv (tuple1 ("Invalid" ++ type_of ty) (w s)), []))).
Proof.
  intros ty s w W.
  assert (H : runs [type_of ty; "new"] [w s] (lift (vresult ty w) (new_of ty s)))
    by (destruct W as [-> | ->]; apply says_runs; constructor).
  destruct (rules_decided ty s) as [[N D]|[N D]]; rewrite N in H; split; intros D'; try contradiction; exact H.
Qed.
Theorem C60_singleton : forall b,
  (derived_from grammar_abnf "singleton" [b] -> runs ["Singleton"; "new"] [VByte b] (Ret (okv (vsingleton b), []))) /\
  (~ derived_from grammar_abnf "singleton" [b] ->
   runs ["Singleton"; "new"] [VByte b] (Ret (errv (tuple1 "InvalidSingleton" (VByte b)), []))).
Proof.
  intros b. pose proof (says_runs _ _ _ (says_Singleton_new b)) as H. split; intros D.
  - apply C52_singleton_file in D. rewrite D in H. exact H.
  - destruct (C33_bytes b) as (_ & Y & N). destruct (singleton_ok b).
    + exfalso. apply D, C52_singleton_file, Y. reflexivity.
    + rewrite (proj1 (N eq_refl)) in H. exact H.
Qed.
Theorem C60_grandfathered : forall s w, w = VStr \/ w = VBytes ->
  (forall g, same_ci s (Grandfathered_as_bytes g) ->
     runs ["GrandfatheredLangTag"; "new"] [w s] (Ret (okv (vgrandfathered g), []))) /\
  ((exists v, runs ["GrandfatheredLangTag"; "new"] [w s] (Ret (okv v, []))) <-> derived_from grammar_abnf "grandfathered" s) /\
  (~ derived_from grammar_abnf "grandfathered" s ->
     runs ["GrandfatheredLangTag"; "new"] [w s] (Ret (errv (w s), []))).
Proof.
  intros s w W. pose proof (says_runs _ _ _ (says_Grandfathered_new s w W)) as H. split; [|split].
  - intros g G. apply (proj1 C04_grandfathered_new) in G. rewrite G in H. exact H.
  - rewrite <- C52_grandfathered_file. split.
    + intros (v & V). pose proof (runs_unique _ _ _ _ H V) as E.
      destruct (Grandfathered_new s) as [[g|x]| |]; try discriminate E. exists g. reflexivity.
    + intros (g & G). rewrite G in H. exists (vgrandfathered g). exact H.
  - rewrite <- C52_grandfathered_file. intros N.
    assert (E : Grandfathered_new s = Ret (Err s)).
    { apply (proj1 (proj2 C04_grandfathered_new)). intros g G. apply N. exists g. apply (proj1 C04_grandfathered_new), G. }
    rewrite E in H. exact H.
Qed.
Print Assumptions C60_new.
Print Assumptions C60_singleton.
Print Assumptions C60_grandfathered.
Example C60_case : derived_from grammar_abnf (rule_name LangTagT) (bs "fr-Latn") /\
  ~ derived_from grammar_abnf (rule_name LangTagT) (bs "a-DE").
Proof.
  split.
  - destruct (rules_decided LangTagT (bs "fr-Latn")) as [[_ D]|[N _]]; [exact D|vm_compute in N; discriminate].
  - destruct (rules_decided LangTagT (bs "a-DE")) as [[N _]|[_ D]]; [vm_compute in N; discriminate|exact D].
Qed.

(** * C61: what the accessors do, panics included *)

(** [c], or a panic if [b]. *)
Definition unless (b : bool) (v : value) : outcome (value * list value) := if b then Panic else Ret (v, []).
(** The texts of [script], [region], [variants], [extensions] and [private_use] run to the component, but panic if the
    tag ends before it could appear; [private_use] takes the extensions with it. *)
Theorem C61_accessors : forall s t ty, is_tag s t -> ty = NormalLangTagT \/ ty = LangTagT ->
  runs ["NormalLangTag"; "language"] [vtag NormalLangTagT s] (Ret (vtag LanguageT (language_text (t_language t)), [])) /\
  runs ["LangTag"; "language"] [vtag LangTagT s] (Ret (some (vtag LanguageT (language_text (t_language t))), [])) /\
  runs [type_of ty; "script"] [vtag ty s] (unless (ends_by_language t) (voption (vtag ScriptT) (t_script t))) /\
  runs [type_of ty; "region"] [vtag ty s] (unless (ends_by_script t) (voption (vtag RegionT) (t_region t))) /\
  runs [type_of ty; "variants"] [vtag ty s] (unless (ends_by_region t) (vtag VariantsT (join (t_variants t)))) /\
  runs [type_of ty; "extensions"] [vtag ty s]
    (unless (ends_by_variants t) (vtag ExtensionsT (extensions_text (t_extensions t)))) /\
  runs [type_of ty; "private_use"] [vtag ty s]
    (unless (ends_by_region t)
       (if ends_by_variants t then none else some (vtag PrivateUseT (join (rest_subtags t))))).
Proof.
  intros s t ty T Y. destruct (LangTag_normal s t T) as (E1 & E2 & E3 & E4 & E5 & E6 & _).
  assert (L : NormalLangTag_language s = Ret (language_text (t_language t))) by exact (language_exact s t T).
  split; [pose proof (says_runs _ _ _ (says_Normal_language s)) as H; rewrite L in H; exact H|].
  split; [pose proof (says_runs _ _ _ (says_LangTag_language s)) as H; rewrite E1, L in H; exact H|].
  destruct Y as [-> | ->].
  - split; [pose proof (says_runs _ _ _ (says_Normal_script s)) as H; rewrite (script_exact s t T) in H;
      destruct (ends_by_language t); exact H|].
    split; [pose proof (says_runs _ _ _ (says_Normal_region s)) as H; rewrite (region_exact s t T) in H;
      destruct (ends_by_script t); exact H|].
    split; [pose proof (says_runs _ _ _ (says_Normal_variants s)) as H; rewrite (variants_exact s t T) in H;
      destruct (ends_by_region t); exact H|].
    split; [pose proof (says_runs _ _ _ (says_Normal_extensions s)) as H; rewrite (extensions_exact s t T) in H;
      destruct (ends_by_variants t); exact H|].
    pose proof (says_runs _ _ _ (says_Normal_private_use s)) as H. rewrite (private_use_exact s t T) in H.
    destruct (ends_by_region t), (ends_by_variants t); exact H.
  - split; [pose proof (says_runs _ _ _ (says_LangTag_script s)) as H; rewrite E2, (script_exact s t T) in H;
      destruct (ends_by_language t); exact H|].
    split; [pose proof (says_runs _ _ _ (says_LangTag_region s)) as H; rewrite E3, (region_exact s t T) in H;
      destruct (ends_by_script t); exact H|].
    split; [pose proof (says_runs _ _ _ (says_LangTag_variants s)) as H; rewrite E4, (variants_exact s t T) in H;
      destruct (ends_by_region t); exact H|].
    split; [pose proof (says_runs _ _ _ (says_LangTag_extensions s)) as H; rewrite E5, (extensions_exact s t T) in H;
      destruct (ends_by_variants t); exact H|].
    pose proof (says_runs _ _ _ (says_LangTag_private_use s)) as H. rewrite E6, (private_use_exact s t T) in H.
    destruct (ends_by_region t), (ends_by_variants t); exact H.
Qed.
(** On the other tags they give nothing. *)
Theorem C61_not_normal : forall s, not_normal s ->
  runs ["LangTag"; "language"] [vtag LangTagT s] (Ret (none, [])) /\
  runs ["LangTag"; "script"] [vtag LangTagT s] (Ret (none, [])) /\
  runs ["LangTag"; "region"] [vtag LangTagT s] (Ret (none, [])) /\
  runs ["LangTag"; "variants"] [vtag LangTagT s] (Ret (vtag VariantsT [], [])) /\
  runs ["LangTag"; "extensions"] [vtag LangTagT s] (Ret (vtag ExtensionsT [], [])) /\
  runs ["LangTag"; "private_use"] [vtag LangTagT s] (Ret (none, [])).
Proof.
  intros s N. destruct (LangTag_not_normal s (not_normal_abnf s N)) as (E1 & E2 & E3 & E4 & E5 & E6 & _).
  split; [pose proof (says_runs _ _ _ (says_LangTag_language s)) as H; rewrite E1 in H; exact H|].
  split; [pose proof (says_runs _ _ _ (says_LangTag_script s)) as H; rewrite E2 in H; exact H|].
  split; [pose proof (says_runs _ _ _ (says_LangTag_region s)) as H; rewrite E3 in H; exact H|].
  split; [pose proof (says_runs _ _ _ (says_LangTag_variants s)) as H; rewrite E4 in H; exact H|].
  split; [pose proof (says_runs _ _ _ (says_LangTag_extensions s)) as H; rewrite E5 in H; exact H|].
  pose proof (says_runs _ _ _ (says_LangTag_private_use s)) as H. rewrite E6 in H. exact H.
Qed.
Print Assumptions C61_accessors.
Print Assumptions C61_not_normal.
Example C61_case :
  call 1000 crate 600 (VPath ["LangTag"; "region"]) [vtag LangTagT full_text] = Ret (some (vtag RegionT (bs "IT")), []) /\
  call 1000 crate 600 (VPath ["LangTag"; "region"]) [vtag LangTagT (bs "fr-Latn")] = Panic /\
  call 1000 crate 600 (VPath ["LangTag"; "extensions"]) [vtag LangTagT short_text] = Panic /\
  call 1000 crate 600 (VPath ["LangTag"; "private_use"]) [vtag LangTagT ext_text_sample] =
    Ret (some (vtag PrivateUseT (bs "a-ext-b-ext1-ext2")), []).
Proof. repeat split; vm_compute; reflexivity. Qed.

(** * C62: comparisons and hashes *)

Theorem C62_comparisons : forall ty a b,
  (exists e, runs [type_of ty; "eq"] [vtag ty a; vtag ty b] (Ret (VBool e, [])) /\ (e = true <-> same_ci a b)) /\
  runs [type_of ty; "cmp"] [vtag ty a; vtag ty b] (Ret (ordering (lex_codes (marked a) (marked b)), [])) /\
  runs [type_of ty; "partial_cmp"] [vtag ty a; vtag ty b]
    (Ret (some (ordering (lex_codes (marked a) (marked b))), [])) /\
  forall l, runs [type_of ty; "hash"] [vtag ty a; VSink l] (Ret (VUnit, [VSink (l ++ map lower a)])).
Proof.
  intros ty a b. split; [|split; [|split]].
  - pose proof (says_runs _ _ _ (says_eq ty a b)) as H.
    destruct (C18_eq_exact ty a b) as (I & [E|E]); rewrite E in H, I; eexists; (split; [exact H|]).
    + split; [|reflexivity]. intros _. apply same_ci_pointwise, I. reflexivity.
    + split; [discriminate|]. intros S. apply same_ci_pointwise, I in S. discriminate.
  - pose proof (says_runs _ _ _ (says_cmp ty a b)) as H. rewrite C20_exact in H. exact H.
  - pose proof (says_runs _ _ _ (says_partial_cmp ty a b)) as H.
    destruct (proj1 (C19_cmp_total_order ty) a b) as (c & C & _ & P). rewrite P in H. rewrite C20_exact in C.
    injection C as <-. exact H.
  - intros l. pose proof (says_runs _ _ _ (says_hash ty a l)) as H.
    replace (map into_smallcase a) with (map lower a) in H; [exact H|]. apply map_ext. intros x. destruct x; reflexivity.
Qed.
Print Assumptions C62_comparisons.
Example C62_case :
  call 1000 crate 200 (VPath ["Script"; "eq"]) [vtag ScriptT (bs "LATN"); vtag ScriptT (bs "latn")] = Ret (VBool true, []) /\
  call 1000 crate 200 (VPath ["LangTag"; "cmp"]) [vtag LangTagT (bs "fr"); vtag LangTagT (bs "FR-be")] = Ret (ordering Gt, []).
Proof. split; vm_compute; reflexivity. Qed.

(** * C63: iterators and lookups *)

(** Calls of [next] or [next_back], one after the other, on an iterator. *)
Fixpoint text_calls (fs : list (list string)) (it : value) (l : list value) : Prop :=
  match fs, l with
  | f :: fs', v :: l' => exists it', runs f [it] (Ret (v, [it'])) /\ text_calls fs' it' l'
  | [], [] => True
  | _, _ => False
  end.

Lemma text_calls_next {I} f (vi : I -> value) w next :
  (forall it, runs f [vi it] (lift_step (voption w) vi (next it))) ->
  forall k it l, calls next k it = Ret l -> text_calls (repeat f k) (vi it) (map (voption w) l).
Proof.
  intros H k. induction k as [|k IH]; intros it l C.
  - injection C as <-. exact Logic.I.
  - cbn [calls] in C. specialize (H it). destruct (next it) as [[o it']| |]; try discriminate C. cbn [bind fst snd] in C.
    destruct (calls next k it') as [rs| |] eqn:E; try discriminate C. injection C as <-.
    exists (vi it'). split; [exact H|]. apply IH, E.
Qed.
Lemma text_calls_de {I} f g (vi : I -> value) w next back :
  (forall it, runs f [vi it] (lift_step (voption w) vi (next it))) ->
  (forall it, runs g [vi it] (lift_step (voption w) vi (back it))) ->
  forall ops it l, calls_de next back ops it = Ret l ->
  text_calls (map (fun op => match op with Front => f | Back => g end) ops) (vi it) (map (voption w) l).
Proof.
  intros H B ops. induction ops as [|op ops IH]; intros it l C.
  - injection C as <-. exact Logic.I.
  - cbn [calls_de] in C. specialize (H it). specialize (B it). cbn [map].
    destruct op; [destruct (next it) as [[o it']| |]|destruct (back it) as [[o it']| |]]; try discriminate C;
      cbn [bind fst snd] in C; (destruct (calls_de next back ops it') as [rs| |] eqn:E; try discriminate C);
      injection C as <-; exists (vi it'); (split; [assumption|]); apply IH, E.
Qed.

Theorem C63_variants : forall l, variants_ok l = true -> let v := vtag VariantsT (join l) in
  (exists it, runs ["Variants"; "iter"] [v] (Ret (it, [])) /\ forall ops,
     text_calls (map (fun op => ["VariantsIter"; match op with Front => "next" | Back => "next_back" end]) ops) it
                (map (voption (vtag VariantT)) (deque_run ops l))) /\
  runs ["Variants"; "first"] [v] (Ret (voption (vtag VariantT) (first_of l), [])) /\
  runs ["Variants"; "last"] [v] (Ret (voption (vtag VariantT) (last_of l), [])).
Proof.
  intros l L v. destruct (variants_first_last l L) as [F B]. split; [|split].
  - exists (vviter (Variants_iter (join l))). split; [apply says_runs; constructor|]. intros ops.
    pose proof (text_calls_de ["VariantsIter"; "next"] ["VariantsIter"; "next_back"] vviter (vtag VariantT) _ _
      (fun it => says_runs _ _ _ (says_VariantsIter_next it))
      (fun it => says_runs _ _ _ (says_VariantsIter_next_back it)) ops (Variants_iter (join l)) _
      (variants_calls _ _ _ (Variants_iter_spec l L))) as H.
    erewrite map_ext; [exact H|]. intros []; reflexivity.
  - pose proof (says_runs _ _ _ (says_Variants_first (join l))) as H. rewrite F in H. exact H.
  - pose proof (says_runs _ _ _ (says_Variants_last (join l))) as H. rewrite B in H. exact H.
Qed.
Theorem C63_extensions : forall l, extensions_ok l = true -> let v := vtag ExtensionsT (extensions_text l) in
  (exists it, runs ["Extensions"; "iter"] [v] (Ret (it, [])) /\ forall k,
     text_calls (repeat ["ExtensionsIter"; "next"] k) it
                (map (voption (vtag ExtensionT)) (expected_next k (map extension_text l)))) /\
  forall c, runs ["Extensions"; "get"] [v; vsingleton c]
    (Ret (voption (vtag ExtensionT) (option_map extension_text (find (fun e => beq (e_singleton e) c) l)), [])).
Proof.
  intros l L v. split.
  - exists (viter_of "ExtensionsIter" (Extensions_iter (extensions_text l))). split; [apply says_runs; constructor|].
    intros k. apply (text_calls_next _ _ _ _ (fun it => says_runs _ _ _ (says_ExtensionsIter_next it))).
    apply extensions_calls, Extensions_iter_spec, L.
  - intros c. pose proof (says_runs _ _ _ (says_Extensions_get (extensions_text l) c)) as H.
    rewrite (Extensions_get_spec l c L) in H. exact H.
Qed.
Theorem C63_extension : forall e, extension_ok e = true -> let v := vtag ExtensionT (extension_text e) in
  runs ["Extension"; "singleton"] [v] (Ret (vsingleton (e_singleton e), [])) /\
  exists it, runs ["Extension"; "iter"] [v] (Ret (it, [])) /\ forall k,
    text_calls (repeat ["ExtensionIter"; "next"] k) it
               (map (voption (vtag ExtensionSubtagT)) (expected_next k (e_subtags e))).
Proof.
  intros e E v. split.
  - pose proof (says_runs _ _ _ (says_Extension_singleton (extension_text e))) as H.
    replace (Extension_singleton (extension_text e)) with (@Ret byte (e_singleton e)) in H; [exact H|].
    destruct e as [b [|x l]]; reflexivity.
  - exists (viter_of "ExtensionIter" (Extension_iter (extension_text e))). split; [apply says_runs; constructor|].
    intros k. apply (text_calls_next _ _ _ _ (fun it => says_runs _ _ _ (says_ExtensionIter_next it))).
    rewrite ExtensionIter_next_eq. apply segment_calls, Extension_iter_spec, E.
Qed.
Theorem C63_private_use : forall p, private_ok p = true ->
  exists it, runs ["PrivateUse"; "iter"] [vtag PrivateUseT (private_text p)] (Ret (it, [])) /\ forall k,
    text_calls (repeat ["PrivateUseIter"; "next"] k) it
               (map (voption (vtag PrivateUseSubtagT)) (expected_next k (p_subtags p))).
Proof.
  intros p P. exists (viter_of "PrivateUseIter" (PrivateUse_iter (private_text p))).
  split; [apply says_runs; constructor|]. intros k.
  apply (text_calls_next _ _ _ _ (fun it => says_runs _ _ _ (says_PrivateUseIter_next it))).
  rewrite PrivateUseIter_next_eq. apply segment_calls, PrivateUse_iter_spec, P.
Qed.
Theorem C63_language : forall l, language_ok l = true -> let v := vtag LanguageT (language_text l) in
  runs ["Language"; "primary"] [v] (Ret (vtag PrimaryLanguageT (l_primary l), [])) /\
  runs ["Language"; "extension"] [v]
    (Ret (voption (vtag LanguageExtensionT) (match l_extlangs l with [] => None | x => Some (join x) end), [])) /\
  exists it, runs ["Language"; "extension_subtags"] [v] (Ret (it, [])) /\ forall k,
    text_calls (repeat ["LanguageExtensionIter"; "next"] k) it
               (map (voption (vtag ExtendedLangTagT)) (expected_next k (l_extlangs l))).
Proof.
  intros l L v. split; [|split].
  - pose proof (says_runs _ _ _ (says_Language_primary (language_text l))) as H.
    rewrite (Language_primary_spec l L) in H. exact H.
  - pose proof (says_runs _ _ _ (says_Language_extension (language_text l))) as H.
    rewrite (Language_extension_spec l L) in H. destruct (l_extlangs l); exact H.
  - exists (viter_of "LanguageExtensionIter" (Language_extension_subtags (language_text l))).
    split; [apply says_runs; constructor|]. intros k.
    apply (text_calls_next _ _ _ _ (fun it => says_runs _ _ _ (says_LanguageExtensionIter_next it))).
    rewrite LanguageExtensionIter_next_eq. apply segment_calls, Language_extension_subtags_spec, L.
Qed.
Print Assumptions C63_variants.
Print Assumptions C63_extensions.
Print Assumptions C63_extension.
Print Assumptions C63_private_use.
Print Assumptions C63_language.
(** Calls of the text of [VariantsIter], back, front, back and front. *)
Fixpoint call_all (fs : list (list string)) (args : list value) : outcome (list value) :=
  match fs with
  | f :: fs' => let! r := call 1000 crate 300 (VPath f) args in let! rs := call_all fs' (snd r) in Ret (fst r :: rs)
  | [] => Ret []
  end.
Example C63_case :
  call_all [["VariantsIter"; "next_back"]; ["VariantsIter"; "next"]; ["VariantsIter"; "next_back"]; ["VariantsIter"; "next"]]
    [vviter (Variants_iter (bs "rozaj-1996-biske"))] =
  Ret (map (voption (vtag VariantT)) [Some (bs "biske"); Some (bs "rozaj"); Some (bs "1996"); None]).
Proof. vm_compute. reflexivity. Qed.

(** * C64: classification *)

Theorem C64_classification : forall s, accepted LangTagT s -> exists k,
  runs ["LangTag"; "kind"] [vtag LangTagT s] (Ret (vkind k, [])) /\
  (k = KNormal <-> derived_from grammar_abnf "langtag" s) /\
  (k = KPrivateUse <-> derived_from grammar_abnf "privateuse" s) /\
  (k = KGrandfathered <-> derived_from grammar_abnf "irregular" s) /\
  runs ["LangTag"; "is_normal"] [vtag LangTagT s] (Ret (VBool (Kind_is_normal k), [])) /\
  runs ["LangTag"; "is_private_use"] [vtag LangTagT s] (Ret (VBool (Kind_is_private_use k), [])) /\
  (exists b, runs ["LangTag"; "is_grandfathered"] [vtag LangTagT s] (Ret (VBool b, [])) /\
             (b = true <-> derived_from grammar_abnf "grandfathered" s)) /\
  (k = KNormal -> runs ["LangTag"; "as_normal"] [vtag LangTagT s] (Ret (some (vtag NormalLangTagT s), []))) /\
  (k = KPrivateUse -> runs ["LangTag"; "as_private_use"] [vtag LangTagT s] (Ret (some (vtag PrivateUseT s), []))).
Proof.
  intros s A. destruct (C07_classification s A) as (k & K & K1 & K2 & K3 & ty & Y & Z).
  destruct (C08_exact_partial s A) as (k' & K' & N & P & _). rewrite K in K'. injection K' as <-.
  destruct (C07_typed_views s ty A Y) as (_ & _ & _ & _ & _ & _ & _ & _ & _ & _ & V1 & V2 & _).
  assert (D : forall ty' r, decides ty' (matches r) ->
            decides ty' (derived_from grammar_abnf (rule_name ty')) -> (matches r s <-> derived_from grammar_abnf (rule_name ty') s)).
  { intros ty' r D1 D2. destruct (D1 s) as [[X1 Y1]|[X1 Y1]], (D2 s) as [[X2 Y2]|[X2 Y2]]; try tauto;
      rewrite X1 in X2; discriminate. }
  exists k. split; [pose proof (says_runs _ _ _ (says_LangTag_kind s)) as H; rewrite K in H; exact H|].
  split; [rewrite K1; exact (D NormalLangTagT _ (proj1 (proj2 (proj2 C03_productions))) (rules_decided _))|].
  split; [rewrite K2; exact (D PrivateUseT _ (proj1 C03_productions) (rules_decided _))|].
  split; [rewrite K3; symmetry; apply file_irregular|].
  split; [pose proof (says_runs _ _ _ (says_LangTag_is_normal s)) as H; rewrite N in H; exact H|].
  split; [pose proof (says_runs _ _ _ (says_LangTag_is_private_use s)) as H; rewrite P in H; exact H|].
  split.
  { pose proof (says_runs _ _ _ (says_LangTag_is_grandfathered s)) as H. rewrite is_grandfathered_eq in H.
    eexists. split; [exact H|]. rewrite <- file_grandfathered, Grandfathered_new_spec. unfold gf_result.
    destruct (gf_find GRANDFATHERED s) as [g|]; cbn [is_some]; split; intros X; try discriminate; try reflexivity.
    - exists g. reflexivity.
    - destruct X as (g & X). discriminate. }
  split; intros ->.
  - subst ty. pose proof (says_runs _ _ _ (says_LangTag_as_normal s)) as H. rewrite V1 in H. exact H.
  - subst ty. pose proof (says_runs _ _ _ (says_LangTag_as_private_use s)) as H. rewrite V2 in H. exact H.
Qed.
Print Assumptions C64_classification.
Example C64_case :
  call 1000 crate 300 (VPath ["LangTag"; "kind"]) [vtag LangTagT (bs "I-Klingon")] = Ret (vkind KGrandfathered, []) /\
  call 1000 crate 300 (VPath ["LangTag"; "kind"]) [vtag LangTagT (bs "zh-min")] = Ret (vkind KNormal, []) /\
  call 1000 crate 300 (VPath ["LangTag"; "is_grandfathered"]) [vtag LangTagT (bs "zh-min")] = Ret (VBool true, []).
Proof. repeat split; vm_compute; reflexivity. Qed.
