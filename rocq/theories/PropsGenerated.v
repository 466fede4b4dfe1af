(** Property C65: the files that are compiled, run with any automata that decide the rules of grammar.abnf. *)
From Verif Require Import Base GrammarRs Validate Utils Grandfathered Normal LangTag Newtypes Derived Spec Observe
  Grammar Abnf AbnfText AbnfEquiv Samples PropsFile PropsAccess PropsSource.
From Verif Require Import RustText RustSyntax RustEval RustProgram RustRefine RustGrammar RustValidate RustNormal RustAccess
  RustTags RustLib RustSays RustOracle RustGenerated.
Open Scope string_scope.
Open Scope nat_scope.
Open Scope list_scope.

(** [V] answers what grammar.abnf says, for the rules that lib.rs exports, by the names that the macro gives to their
    automata. *)
Definition right (V : string -> bytes -> bool) : Prop :=
  forall ts x s, tokens lib_rs = Some ts -> In x (tl (exported ts)) ->
    (V (pascal x) s = true <-> derived_from grammar_abnf x s).

(** * What lib.rs asks of the macro *)

(** lib.rs exports the fifteen rules of grammar.abnf, each of which is the rule of one type; the type names the automaton
    that the macro writes for it. *)
Theorem C65_exported : exists ts P, tokens lib_rs = Some ts /\ load compiled_files (Program [] [] [] [] []) = Some P /\
  exported ts = "grammar.abnf" :: map rule_name new_types /\
  (forall ty, In ty new_types /\ resolve P [type_of ty; "new"] = TgNew (type_of ty) (pascal (rule_name ty))) /\
  (forall p t a, resolve P p = TgNew t a -> exists ty, t = type_of ty /\ a = pascal (rule_name ty)).
Proof.
  destruct (tokens lib_rs) as [ts|] eqn:T; [|exfalso; vm_compute in T; discriminate].
  exists ts, compiled. split; [reflexivity|]. split; [exact compiled_is_the_source|]. split; [|split].
  - assert (E : option_map exported (tokens lib_rs) = Some ("grammar.abnf" :: map rule_name new_types))
      by (vm_compute; reflexivity). rewrite T in E. now injection E.
  - intros ty. split; [destruct ty; cbn; tauto|]. destruct ty; vm_compute; reflexivity.
  - intros p t a H. destruct (resolve_new compiled p t a H) as (attrs & fs & I & A).
    assert (X : forallb (fun s => match automaton_attr (snd (fst s)) with
                                  | Some a => existsb (fun ty => String.eqb (fst (fst s)) (type_of ty) && String.eqb a (pascal (rule_name ty))) new_types
                                  | None => true
                                  end) (structs compiled) = true) by (vm_compute; reflexivity).
    pose proof (proj1 (forallb_forall _ _) X _ I) as Y. cbn [fst snd] in Y. rewrite A in Y.
    apply existsb_exists in Y as (ty & _ & E). apply andb_prop in E as [E1 E2]. exists ty. split; now apply String.eqb_eq.
Qed.

Lemma right_validate V : right V -> forall ty s, validate (automaton_of ty) s = Ret (V (automaton_name ty) s).
Proof.
  intros R ty s. destruct C65_exported as (ts & P & T & L & E & K & _). destruct (K ty) as [I N].
  rewrite compiled_is_the_source in L. injection L as <-.
  assert (A : automaton_name ty = pascal (rule_name ty)) by (destruct ty; vm_compute; reflexivity).
  specialize (R ts (rule_name ty) s T). rewrite E in R. specialize (R (in_map rule_name _ _ I)). rewrite A.
  pose proof (rules_decided ty s) as D. unfold new_of, new in D. revert R D.
  generalize (derived_from grammar_abnf (rule_name ty) s) (V (pascal (rule_name ty)) s). intros D b R [[D1 D2]|[D1 D2]];
    destruct (validate (automaton_of ty) s) as [[]| |]; cbn [bind] in D1; try discriminate D1; f_equal.
  - symmetry. apply R, D2.
  - destruct b; [|reflexivity]. exfalso. apply D2, R. reflexivity.
Qed.

(** * What they give *)

(** Whatever the macro writes, if its automata answer what grammar.abnf says, then the thirteen files that are compiled
    do what all fourteen do with grammar.rs. *)
Theorem C65_same : forall V, right V -> forall f args r, plain_call f args = true -> r <> OutOfFuel ->
  (runs f args r <-> runs_with V f args r).
Proof. intros V R. intros f args r. exact (runs_both V f args r (right_validate V R)). Qed.

Lemma paths_plain : Forall (fun f => forallb outside f = true ->
  exists args r, says f args r /\ plain_call f args = true /\ r <> OutOfFuel) paths.
Proof.
  unfold paths. apply Forall_app. split.
  - apply Forall_flat_map. apply Forall_forall. intros ty _.
    apply Forall_cons; [intros H; destruct ty; discriminate H|].
    apply Forall_cons; [intros H; destruct ty; discriminate H|].
    apply Forall_cons; [intros H; destruct ty; discriminate H|].
    apply Forall_cons; [intros H; destruct ty; discriminate H|].
    apply Forall_cons; [intros H; destruct ty; discriminate H|].
    apply Forall_cons; [intros _; do 2 eexists; split; [exact (says_eq ty [] [])|split; [destruct ty; reflexivity|destruct ty; vm_compute; discriminate]]|].
    apply Forall_cons; [intros _; do 2 eexists; split; [exact (says_partial_cmp ty [] [])|split; [destruct ty; reflexivity|destruct ty; vm_compute; discriminate]]|].
    apply Forall_cons; [intros _; do 2 eexists; split; [exact (says_cmp ty [] [])|split; [destruct ty; reflexivity|destruct ty; vm_compute; discriminate]]|].
    apply Forall_cons; [intros _; do 2 eexists; split; [exact (says_hash ty [] [])|split; [destruct ty; reflexivity|destruct ty; vm_compute; discriminate]]|].
    apply Forall_nil.
  -
    apply Forall_cons; [intros _; do 2 eexists; split; [exact (says_into_smallcase x61)|split; [reflexivity|vm_compute; discriminate]]|].
    apply Forall_cons; [intros _; do 2 eexists; split; [exact (says_case_insensitive_eq [] [])|split; [reflexivity|vm_compute; discriminate]]|].
    apply Forall_cons; [intros _; do 2 eexists; split; [exact (says_case_insensitive_hash [] [])|split; [reflexivity|vm_compute; discriminate]]|].
    apply Forall_cons; [intros _; do 2 eexists; split; [exact (says_case_insensitive_cmp [] [])|split; [reflexivity|vm_compute; discriminate]]|].
    apply Forall_cons; [intros _; do 2 eexists; split; [exact (says_LangTag_language [])|split; [reflexivity|vm_compute; discriminate]]|].
    apply Forall_cons; [intros _; do 2 eexists; split; [exact (says_LangTag_script [])|split; [reflexivity|vm_compute; discriminate]]|].
    apply Forall_cons; [intros _; do 2 eexists; split; [exact (says_LangTag_region [])|split; [reflexivity|vm_compute; discriminate]]|].
    apply Forall_cons; [intros _; do 2 eexists; split; [exact (says_LangTag_variants [])|split; [reflexivity|vm_compute; discriminate]]|].
    apply Forall_cons; [intros _; do 2 eexists; split; [exact (says_LangTag_extensions [])|split; [reflexivity|vm_compute; discriminate]]|].
    apply Forall_cons; [intros _; do 2 eexists; split; [exact (says_LangTag_private_use [])|split; [reflexivity|vm_compute; discriminate]]|].
    apply Forall_cons; [intros _; do 2 eexists; split; [exact (says_LangTag_private_use_subtags [])|split; [reflexivity|vm_compute; discriminate]]|].
    apply Forall_cons; [intros _; do 2 eexists; split; [exact (says_LangTag_is_normal [])|split; [reflexivity|vm_compute; discriminate]]|].
    apply Forall_cons; [intros _; do 2 eexists; split; [exact (says_LangTag_is_private_use [])|split; [reflexivity|vm_compute; discriminate]]|].
    apply Forall_cons; [intros _; do 2 eexists; split; [exact (says_LangTag_is_grandfathered [])|split; [reflexivity|vm_compute; discriminate]]|].
    apply Forall_cons; [intros _; do 2 eexists; split; [exact (says_LangTag_as_normal [])|split; [reflexivity|vm_compute; discriminate]]|].
    apply Forall_cons; [intros _; do 2 eexists; split; [exact (says_LangTag_as_private_use [])|split; [reflexivity|vm_compute; discriminate]]|].
    apply Forall_cons; [intros _; do 2 eexists; split; [exact (says_LangTag_as_grandfathered [])|split; [reflexivity|vm_compute; discriminate]]|].
    apply Forall_cons; [intros _; do 2 eexists; split; [exact (says_LangTag_kind [])|split; [reflexivity|vm_compute; discriminate]]|].
    apply Forall_cons; [intros _; do 2 eexists; split; [exact (says_LangTag_as_typed [])|split; [reflexivity|vm_compute; discriminate]]|].
    apply Forall_cons; [intros _; do 2 eexists; split; [exact (says_Typed_language (TPrivateUse []))|split; [reflexivity|vm_compute; discriminate]]|].
    apply Forall_cons; [intros _; do 2 eexists; split; [exact (says_Typed_kind (TPrivateUse []))|split; [reflexivity|vm_compute; discriminate]]|].
    apply Forall_cons; [intros _; do 2 eexists; split; [exact (says_Typed_is_normal (TPrivateUse []))|split; [reflexivity|vm_compute; discriminate]]|].
    apply Forall_cons; [intros _; do 2 eexists; split; [exact (says_Typed_as_normal (TPrivateUse []))|split; [reflexivity|vm_compute; discriminate]]|].
    apply Forall_cons; [intros _; do 2 eexists; split; [exact (says_Kind_is_normal KNormal)|split; [reflexivity|vm_compute; discriminate]]|].
    apply Forall_cons; [intros _; do 2 eexists; split; [exact (says_Typed_is_private_use (TPrivateUse []))|split; [reflexivity|vm_compute; discriminate]]|].
    apply Forall_cons; [intros _; do 2 eexists; split; [exact (says_Typed_as_private_use (TPrivateUse []))|split; [reflexivity|vm_compute; discriminate]]|].
    apply Forall_cons; [intros _; do 2 eexists; split; [exact (says_Kind_is_private_use KNormal)|split; [reflexivity|vm_compute; discriminate]]|].
    apply Forall_cons; [intros _; do 2 eexists; split; [exact (says_Typed_is_grandfathered (TPrivateUse []))|split; [reflexivity|vm_compute; discriminate]]|].
    apply Forall_cons; [intros _; do 2 eexists; split; [exact (says_Typed_as_grandfathered (TPrivateUse []))|split; [reflexivity|vm_compute; discriminate]]|].
    apply Forall_cons; [intros _; do 2 eexists; split; [exact (says_Kind_is_grandfathered KNormal)|split; [reflexivity|vm_compute; discriminate]]|].
    apply Forall_cons; [intros _; do 2 eexists; split; [exact (says_Grandfathered_new [] VStr (or_introl eq_refl))|split; [reflexivity|vm_compute; discriminate]]|].
    apply Forall_cons; [intros _; do 2 eexists; split; [exact (says_Grandfathered_try_from [])|split; [reflexivity|vm_compute; discriminate]]|].
    apply Forall_cons; [intros _; do 2 eexists; split; [exact (says_Grandfathered_language IAmi)|split; [reflexivity|vm_compute; discriminate]]|].
    apply Forall_cons; [intros _; do 2 eexists; split; [exact (says_Grandfathered_as_bytes IAmi)|split; [reflexivity|vm_compute; discriminate]]|].
    apply Forall_cons; [intros _; do 2 eexists; split; [exact (says_Grandfathered_as_str IAmi)|split; [reflexivity|vm_compute; discriminate]]|].
    apply Forall_cons; [intros _; do 2 eexists; split; [exact (says_Grandfathered_display IAmi [])|split; [reflexivity|vm_compute; discriminate]]|].
    apply Forall_cons; [intros _; do 2 eexists; split; [exact (says_Normal_language_end [])|split; [reflexivity|vm_compute; discriminate]]|].
    apply Forall_cons; [intros _; do 2 eexists; split; [exact (says_Normal_script_range [])|split; [reflexivity|vm_compute; discriminate]]|].
    apply Forall_cons; [intros _; do 2 eexists; split; [exact (says_Normal_region_range [])|split; [reflexivity|vm_compute; discriminate]]|].
    apply Forall_cons; [intros _; do 2 eexists; split; [exact (says_Normal_variants_range [])|split; [reflexivity|vm_compute; discriminate]]|].
    apply Forall_cons; [intros _; do 2 eexists; split; [exact (says_Normal_extensions_range [])|split; [reflexivity|vm_compute; discriminate]]|].
    apply Forall_cons; [intros _; do 2 eexists; split; [exact (says_Normal_private_use_offset [])|split; [reflexivity|vm_compute; discriminate]]|].
    apply Forall_cons; [intros _; do 2 eexists; split; [exact (says_Normal_language [])|split; [reflexivity|vm_compute; discriminate]]|].
    apply Forall_cons; [intros _; do 2 eexists; split; [exact (says_Normal_script [])|split; [reflexivity|vm_compute; discriminate]]|].
    apply Forall_cons; [intros _; do 2 eexists; split; [exact (says_Normal_region [])|split; [reflexivity|vm_compute; discriminate]]|].
    apply Forall_cons; [intros _; do 2 eexists; split; [exact (says_Normal_variants [])|split; [reflexivity|vm_compute; discriminate]]|].
    apply Forall_cons; [intros _; do 2 eexists; split; [exact (says_Normal_extensions [])|split; [reflexivity|vm_compute; discriminate]]|].
    apply Forall_cons; [intros _; do 2 eexists; split; [exact (says_Normal_private_use [])|split; [reflexivity|vm_compute; discriminate]]|].
    apply Forall_cons; [intros _; do 2 eexists; split; [exact (says_Normal_private_use_subtags [])|split; [reflexivity|vm_compute; discriminate]]|].
    apply Forall_cons.
    { intros _. do 2 eexists. split; [|split]; [apply (says_find_list_end [] 0 (VClosure [] [PWild; PWild] (EBool true)) (fun _ _
        => Ret true) 5); [|reflexivity]|reflexivity|vm_compute; discriminate].
      intros M k o sub _ K _. do 5 (destruct k as [|k]; [lia|]). reflexivity. }
    apply Forall_cons; [intros _; do 2 eexists; split; [exact (says_find_segment_end [] 0)|split; [reflexivity|vm_compute; discriminate]]|].
    apply Forall_cons; [intros _; do 2 eexists; split; [exact (says_find_segment_start [] 0)|split; [reflexivity|vm_compute; discriminate]]|].
    apply Forall_cons; [intros _; do 2 eexists; split; [exact (says_Singleton_new x61)|split; [reflexivity|vm_compute; discriminate]]|].
    apply Forall_cons; [intros _; do 2 eexists; split; [exact (says_Singleton_try_from_u8 x61)|split; [reflexivity|vm_compute; discriminate]]|].
    apply Forall_cons; [intros _; do 2 eexists; split; [exact (says_Singleton_try_from_char 65%N)|split; [reflexivity|vm_compute; discriminate]]|].
    apply Forall_cons; [intros _; do 2 eexists; split; [exact (says_Singleton_from_string [])|split; [reflexivity|vm_compute; discriminate]]|].
    apply Forall_cons; [intros _; do 2 eexists; split; [exact (says_Singleton_from_str [])|split; [reflexivity|vm_compute; discriminate]]|].
    apply Forall_cons; [intros _; do 2 eexists; split; [exact (says_Singleton_unwrap x61)|split; [reflexivity|vm_compute; discriminate]]|].
    apply Forall_cons; [intros _; do 2 eexists; split; [exact (says_Singleton_eq_u8 x61 x61)|split; [reflexivity|vm_compute; discriminate]]|].
    apply Forall_cons; [intros _; do 2 eexists; split; [exact (says_Singleton_eq_char x61 65%N)|split; [reflexivity|vm_compute; discriminate]]|].
    apply Forall_cons; [intros _; do 2 eexists; split; [exact (says_Singleton_display x61 [] eq_refl)|split; [reflexivity|vm_compute; discriminate]]|].
    apply Forall_cons; [intros _; do 2 eexists; split; [exact (says_Singleton_debug x61 [] eq_refl)|split; [reflexivity|vm_compute; discriminate]]|].
    apply Forall_cons; [intros _; do 2 eexists; split; [exact (says_PrivateUseIter_new [])|split; [reflexivity|vm_compute; discriminate]]|].
    apply Forall_cons; [intros _; do 2 eexists; split; [exact (says_PrivateUse_iter [])|split; [reflexivity|vm_compute; discriminate]]|].
    apply Forall_cons; [intros _; do 2 eexists; split; [exact (says_PrivateUseIter_empty )|split; [reflexivity|vm_compute; discriminate]]|].
    apply Forall_cons; [intros _; do 2 eexists; split; [exact (says_PrivateUseIter_next (Iter [] 0))|split; [reflexivity|vm_compute; discriminate]]|].
    apply Forall_cons; [intros _; do 2 eexists; split; [exact (says_ExtensionIter_new [])|split; [reflexivity|vm_compute; discriminate]]|].
    apply Forall_cons; [intros _; do 2 eexists; split; [exact (says_Extension_iter [])|split; [reflexivity|vm_compute; discriminate]]|].
    apply Forall_cons; [intros _; do 2 eexists; split; [exact (says_ExtensionIter_empty )|split; [reflexivity|vm_compute; discriminate]]|].
    apply Forall_cons; [intros _; do 2 eexists; split; [exact (says_ExtensionIter_next (Iter [] 0))|split; [reflexivity|vm_compute; discriminate]]|].
    apply Forall_cons; [intros _; do 2 eexists; split; [exact (says_LanguageExtensionIter_new [])|split; [reflexivity|vm_compute; discriminate]]|].
    apply Forall_cons; [intros _; do 2 eexists; split; [exact (says_LanguageExtension_iter [])|split; [reflexivity|vm_compute; discriminate]]|].
    apply Forall_cons; [intros _; do 2 eexists; split; [exact (says_LanguageExtensionIter_empty )|split; [reflexivity|vm_compute; discriminate]]|].
    apply Forall_cons; [intros _; do 2 eexists; split; [exact (says_LanguageExtensionIter_next (Iter [] 0))|split; [reflexivity|vm_compute; discriminate]]|].
    apply Forall_cons; [intros _; do 2 eexists; split; [exact (says_ExtensionsIter_new [])|split; [reflexivity|vm_compute; discriminate]]|].
    apply Forall_cons; [intros _; do 2 eexists; split; [exact (says_Extensions_iter [])|split; [reflexivity|vm_compute; discriminate]]|].
    apply Forall_cons; [intros _; do 2 eexists; split; [exact (says_ExtensionsIter_next (Iter [] 0))|split; [reflexivity|vm_compute; discriminate]]|].
    apply Forall_cons; [intros _; do 2 eexists; split; [exact (says_VariantsIter_new [])|split; [reflexivity|vm_compute; discriminate]]|].
    apply Forall_cons; [intros _; do 2 eexists; split; [exact (says_Variants_iter [])|split; [reflexivity|vm_compute; discriminate]]|].
    apply Forall_cons; [intros _; do 2 eexists; split; [exact (says_VariantsIter_empty )|split; [reflexivity|vm_compute; discriminate]]|].
    apply Forall_cons; [intros _; do 2 eexists; split; [exact (says_VariantsIter_next (VIter [] 0 0))|split; [reflexivity|vm_compute; discriminate]]|].
    apply Forall_cons; [intros _; do 2 eexists; split; [exact (says_VariantsIter_next_back (VIter [] 0 0))|split; [reflexivity|vm_compute; discriminate]]|].
    apply Forall_cons; [intros _; do 2 eexists; split; [exact (says_Variants_first [])|split; [reflexivity|vm_compute; discriminate]]|].
    apply Forall_cons; [intros _; do 2 eexists; split; [exact (says_Variants_last [])|split; [reflexivity|vm_compute; discriminate]]|].
    apply Forall_cons; [intros _; do 2 eexists; split; [exact (says_Extension_singleton [])|split; [reflexivity|vm_compute; discriminate]]|].
    apply Forall_cons; [intros _; do 2 eexists; split; [exact (says_Extensions_get [] x61)|split; [reflexivity|vm_compute; discriminate]]|].
    apply Forall_cons; [intros _; do 2 eexists; split; [exact (says_Extensions_iter_extension [] x61)|split; [reflexivity|vm_compute; discriminate]]|].
    apply Forall_cons; [intros _; do 2 eexists; split; [exact (says_Language_primary [])|split; [reflexivity|vm_compute; discriminate]]|].
    apply Forall_cons; [intros _; do 2 eexists; split; [exact (says_Language_extension [])|split; [reflexivity|vm_compute; discriminate]]|].
    apply Forall_cons; [intros _; do 2 eexists; split; [exact (says_Language_extension_subtags [])|split; [reflexivity|vm_compute; discriminate]]|].
    apply Forall_nil.
Qed.

(** So the model says what each of their 150 functions does. *)
Theorem C65_says : forall V, right V -> forall f args r, says f args r -> plain_call f args = true -> r <> OutOfFuel ->
  runs_with V f args r.
Proof. intros V R f args r S A N. exact (proj1 (C65_same V R f args r A N) (says_runs _ _ _ S)). Qed.
Theorem C65_every_function : exists P, load compiled_files (Program [] [] [] [] []) = Some P /\ length (fns P) = 150 /\
  forall e, In e (fns P) -> exists f args r,
    says f args r /\ resolve P f = TgFn (en_type e) (en_fn e) /\ forall V, right V -> runs_with V f args r.
Proof.
  exists compiled. split; [exact compiled_is_the_source|]. split; [vm_compute; reflexivity|].
  intros e E. rewrite compiled_fns in E. apply filter_In in E as [E O].
  assert (X : In (TgFn (en_type e) (en_fn e)) (map (fun e => TgFn (en_type e) (en_fn e)) (fns crate)))
    by (apply in_map_iff; exists e; auto).
  rewrite <- index_resolves in X. apply in_map_iff in X as (i & R & I).
  pose proof (proj1 (forallb_forall _ _) index_bounded i I) as B. apply Nat.ltb_lt in B.
  assert (O' : forallb outside (nth i paths []) = true).
  { assert (Y : forallb (fun i => match resolve crate (nth i paths []) with
                                  | TgFn t _ => implb (outside t) (forallb outside (nth i paths []))
                                  | _ => false
                                  end) RustSays.index = true) by (vm_compute; reflexivity).
    pose proof (proj1 (forallb_forall _ _) Y i I) as Z. cbv beta in Z. rewrite R in Z. rewrite O in Z. exact Z. }
  destruct (proj1 (Forall_forall _ _) paths_plain (nth i paths []) (nth_In _ _ B) O') as (args & r & S & A & N).
  exists (nth i paths []), args, r. split; [exact S|]. split; [now rewrite resolve_same|].
  intros V W. exact (C65_says V W _ _ _ S A N).
Qed.

(** The constructors, as compiled. *)
Theorem C65_new : forall V ty s w, right V -> w = VStr \/ w = VBytes ->
  (derived_from grammar_abnf (rule_name ty) s -> runs_with V [type_of ty; "new"] [w s] (Ret (okv (vtag ty s), []))) /\
  (~ derived_from grammar_abnf (rule_name ty) s ->
   runs_with V [type_of ty; "new"] [w s] (Ret (errv (tuple1 ("Invalid" ++ type_of ty) (w s)), []))).
Proof.
  intros V ty s w R W. destruct (C60_new ty s w W) as [Y N].
  assert (A : plain_call [type_of ty; "new"] [w s] = true) by (destruct W as [-> | ->], ty; reflexivity).
  split; intros D; (refine (proj1 (C65_same V R _ _ _ A _) _); [discriminate|]); [exact (Y D)|exact (N D)].
Qed.
(** The accessors of normal tags, as compiled: as in C61. *)
Theorem C65_accessors : forall V s t ty, right V -> is_tag s t -> ty = NormalLangTagT \/ ty = LangTagT ->
  runs_with V ["NormalLangTag"; "language"] [vtag NormalLangTagT s] (Ret (vtag LanguageT (language_text (t_language t)), [])) /\
  runs_with V ["LangTag"; "language"] [vtag LangTagT s] (Ret (some (vtag LanguageT (language_text (t_language t))), [])) /\
  runs_with V [type_of ty; "script"] [vtag ty s] (unless (ends_by_language t) (voption (vtag ScriptT) (t_script t))) /\
  runs_with V [type_of ty; "region"] [vtag ty s] (unless (ends_by_script t) (voption (vtag RegionT) (t_region t))) /\
  runs_with V [type_of ty; "variants"] [vtag ty s] (unless (ends_by_region t) (vtag VariantsT (join (t_variants t)))) /\
  runs_with V [type_of ty; "extensions"] [vtag ty s]
    (unless (ends_by_variants t) (vtag ExtensionsT (extensions_text (t_extensions t)))) /\
  runs_with V [type_of ty; "private_use"] [vtag ty s]
    (unless (ends_by_region t)
       (if ends_by_variants t then none else some (vtag PrivateUseT (join (rest_subtags t))))).
Proof.
  intros V s t ty R T Y. destruct (C61_accessors s t ty T Y) as (A1 & A2 & A3 & A4 & A5 & A6 & A7).
  assert (U : forall b v, unless b v <> OutOfFuel) by (intros [] v; discriminate).
  assert (P : forall x, outside x = true -> plain_call [type_of ty; x] [vtag ty s] = true).
  { intros x X. unfold plain_call. cbn [forallb]. rewrite X. destruct Y as [-> | ->]; reflexivity. }
  split; [refine (proj1 (C65_same V R _ _ _ _ _) A1); [reflexivity|discriminate]|].
  split; [refine (proj1 (C65_same V R _ _ _ _ _) A2); [reflexivity|discriminate]|].
  split; [refine (proj1 (C65_same V R _ _ _ _ _) A3); [now apply P|apply U]|].
  split; [refine (proj1 (C65_same V R _ _ _ _ _) A4); [now apply P|apply U]|].
  split; [refine (proj1 (C65_same V R _ _ _ _ _) A5); [now apply P|apply U]|].
  split; [refine (proj1 (C65_same V R _ _ _ _ _) A6); [now apply P|apply U]|].
  refine (proj1 (C65_same V R _ _ _ _ _) A7); [now apply P|apply U].
Qed.
Print Assumptions C65_exported.
Print Assumptions C65_same.
Print Assumptions C65_says.
Print Assumptions C65_every_function.
Print Assumptions C65_new.
Print Assumptions C65_accessors.

(** There are such automata, and all answer alike. *)
Definition answer (a : string) (s : bytes) : bool :=
  existsb (fun ty => String.eqb a (pascal (rule_name ty)) && match validate (automaton_of ty) s with Ret b => b | _ => false end)
    new_types.
Theorem C65_exists : right answer /\
  forall V W, right V -> right W -> forall ty s, V (pascal (rule_name ty)) s = W (pascal (rule_name ty)) s.
Proof.
  assert (K : forall ty s, answer (pascal (rule_name ty)) s = true <-> derived_from grammar_abnf (rule_name ty) s).
  { intros ty s. assert (E : answer (pascal (rule_name ty)) s = match validate (automaton_of ty) s with Ret b => b | _ => false end).
    { unfold answer. destruct ty; cbn [new_types existsb];
        repeat match goal with |- context [String.eqb ?a ?b] =>
          let r := eval vm_compute in (String.eqb a b) in change (String.eqb a b) with r end;
        cbn [andb orb]; rewrite ?orb_false_r; reflexivity. }
    rewrite E. pose proof (rules_decided ty s) as D. unfold new_of, new in D. revert D.
    generalize (derived_from grammar_abnf (rule_name ty) s). intros D [[D1 D2]|[D1 D2]];
      destruct (validate (automaton_of ty) s) as [[]| |]; cbn [bind] in D1; try discriminate D1;
      split; intros X; try exact D2; try discriminate; try reflexivity; contradiction. }
  destruct C65_exported as (ts & P & T & L & E & Z & _). split.
  - intros ts' x s T' I. rewrite T in T'. injection T' as <-. rewrite E in I. cbn [tl] in I.
    apply in_map_iff in I as (ty & <- & _). apply K.
  - intros V W RV RW ty s. destruct (Z ty) as [I _].
    pose proof (RV ts (rule_name ty) s T) as A. pose proof (RW ts (rule_name ty) s T) as B. rewrite E in A, B.
    specialize (A (in_map rule_name _ _ I)). specialize (B (in_map rule_name _ _ I)).
    destruct (V (pascal (rule_name ty)) s), (W (pascal (rule_name ty)) s); try reflexivity.
    + symmetry. apply B, A. reflexivity.
    + apply A, B. reflexivity.
Qed.
Print Assumptions C65_exists.
(** The compiled files, run with these. *)
Example C65_case :
  pascal "privateuse-subtag" = "PrivateuseSubtag" /\
  call_with 1000 answer compiled 300 (VPath ["LangTag"; "new"]) [VStr (bs "fr-Latn")] = Ret (okv (vtag LangTagT (bs "fr-Latn")), []) /\
  call_with 1000 answer compiled 600 (VPath ["LangTag"; "region"]) [vtag LangTagT full_text] = Ret (some (vtag RegionT (bs "IT")), []) /\
  call_with 1000 answer compiled 600 (VPath ["LangTag"; "region"]) [vtag LangTagT (bs "fr-Latn")] = Panic.
Proof. repeat split; vm_compute; reflexivity. Qed.
