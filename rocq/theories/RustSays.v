(** What the model says each function of the crate does, by path ([VPath]) and arguments; and that running the source
    text does it. *)
From Verif Require Import Base GrammarRs Validate Utils Grandfathered Normal LangTag Newtypes Derived.
From Verif Require Import RustText RustSyntax RustEval RustProgram RustRefine RustGrammar RustValidate
    RustNormal RustAccess
  RustTags RustLib.

(** The least [usize::MAX] of a machine on which the value can be: the indices in it are at most that, and a text has at
    most [usize::MAX - 4] bytes.  (No Rust object has more than [isize::MAX] bytes, which is half of [usize::MAX].) *)
Fixpoint room (v : value) : nat :=
  match v with
  | VNat n => n
  | VBytes s | VStr s | VChars s => length s + 4
  | VStruct _ l => list_max (map (fun x => room (snd x)) l)
  | VEnum _ _ l | VList l | VTuple l => list_max (map room l)
  | VClosure l _ _ => list_max (map (fun x => room (snd x)) l)
  | _ => 0
  end.
Definition rooms (l : list value) : nat := list_max (map room l).
(** The source text, read and run with enough fuel, on every machine that has room for the arguments, ends in [r]: a value
    and the new values of the [&mut] arguments, or a panic.  An addition or a subtraction that overflows would give no
    result, so there is none.  The texts that the program writes out need 64; [usize::MAX] is at least 65535. *)
Definition runs (f : list string) (args : list value) (r : outcome (value * list value)) : Prop :=
  exists P, load files (Program [] [] [] [] []) = Some P /\
    forall M, 64 <= M -> rooms args <= M -> exists N, forall n, N <= n -> call M P n (VPath f) args = r.

(** A bound on the states of each automaton. *)
Definition states (ty : newtype) : N := match ty with LangTagT => 300 | _ => 100 end%N.

(** * The automata, by type *)

Lemma automaton_new_src {M} n ty :
  16 <= n -> call M crate n (VPath [grammar_type ty; "new"]) [] = Ret (auto (grammar_type ty) 0, []).
Proof. intros H. fuel n 16. destruct ty; enter; run; reflexivity. Qed.

Lemma automata ty : automaton_src (grammar_type ty) (automaton_of ty) (N.to_nat (states ty)).
Proof.
  destruct ty;
  [ exact LanguageTag_src | exact Privateuse_src | exact PrivateuseSubtag_src | exact Langtag_src | exact Language_src
  | exact Primary_src | exact Extlang_src | exact ExtlangTag_src | exact Script_src | exact Region_src | exact
      Variant_src
  | exact Variants_src | exact Extension_src | exact ExtensionSubtag_src | exact Extensions_src ].
Qed.
Lemma push_src {M} n ty q c : 16 <= n -> (q < states ty)%N ->
  call M crate n (VPath [grammar_type ty; "push"]) [auto (grammar_type ty) q; VChar c] =
  Ret match push (automaton_of ty) q c with
      | Some q' => (VBool true, [auto (grammar_type ty) q'])
      | None => (VBool false, [auto (grammar_type ty) q])
      end.
Proof. intros H Q. apply (automata ty); [exact H|]. rewrite N2Nat.id. exact Q. Qed.
Lemma is_accepting_src {M} n ty q : 16 <= n -> (q < states ty)%N ->
  call M crate n (VPath [grammar_type ty; "is_accepting"]) [auto (grammar_type ty) q] =
  Ret (VBool (is_accepting (automaton_of ty) q), []).
Proof. intros H Q. apply (automata ty); [exact H|]. rewrite N2Nat.id. exact Q. Qed.

(** * Every function *)

Inductive says : list string -> list value -> outcome (value * list value) -> Prop :=
| says_into_smallcase : forall c, says ["into_smallcase"] [VByte c]
    (Ret (VByte (into_smallcase c), []))
| says_case_insensitive_eq : forall a b, says ["case_insensitive_eq"] [VBytes a; VBytes b]
    (lift VBool (case_insensitive_eq a b))
| says_case_insensitive_hash : forall s l, says ["case_insensitive_hash"] [VBytes s; VSink l]
    (Ret (VUnit, [VSink (l ++ map into_smallcase s)]))
| says_case_insensitive_cmp : forall a b, says ["case_insensitive_cmp"] [VBytes a; VBytes b]
    (lift ordering (case_insensitive_cmp a b))
| says_automaton_new : forall ty, says [grammar_type ty; "new"] []
    (Ret (auto (grammar_type ty) 0, []))
| says_push : forall ty q c, (q < states ty)%N ->
    says [grammar_type ty; "push"] [auto (grammar_type ty) q; VChar c]
    (Ret match push (automaton_of ty) q c with
      | Some q' => (VBool true, [auto (grammar_type ty) q'])
      | None => (VBool false, [auto (grammar_type ty) q])
      end)
| says_is_accepting : forall ty q, (q < states ty)%N ->
    says [grammar_type ty; "is_accepting"] [auto (grammar_type ty) q]
    (Ret (VBool (is_accepting (automaton_of ty) q), []))
| says_validate_bytes : forall ty s, says [grammar_type ty; "validate_bytes"] [VBytes s]
    (lift VBool (validate (automaton_of ty) s))
| says_validate_str : forall ty s, says [grammar_type ty; "validate_str"] [VStr s]
    (lift VBool (validate (automaton_of ty) s))
| says_new_str : forall ty s, says [type_of ty; "new"] [VStr s]
    (lift (vresult ty VStr) (new_of ty s))
| says_new_bytes : forall ty s, says [type_of ty; "new"] [VBytes s]
    (lift (vresult ty VBytes) (new_of ty s))
| says_eq : forall ty a b, says [type_of ty; "eq"] [vtag ty a; vtag ty b]
    (lift VBool (eq_of ty a b))
| says_partial_cmp : forall ty a b, says [type_of ty; "partial_cmp"] [vtag ty a; vtag ty b]
    (lift (voption ordering) (partial_cmp_of ty a b))
| says_cmp : forall ty a b, says [type_of ty; "cmp"] [vtag ty a; vtag ty b]
    (lift ordering (cmp_of ty a b))
| says_hash : forall ty a l, says [type_of ty; "hash"] [vtag ty a; VSink l]
    (Ret (VUnit, [VSink (l ++ map into_smallcase a)]))
| says_LangTag_language : forall s, says ["LangTag"; "language"] [vtag LangTagT s]
    (lift (voption (vtag LanguageT)) (LangTag_language s))
| says_LangTag_script : forall s, says ["LangTag"; "script"] [vtag LangTagT s]
    (lift (voption (vtag ScriptT)) (LangTag_script s))
| says_LangTag_region : forall s, says ["LangTag"; "region"] [vtag LangTagT s]
    (lift (voption (vtag RegionT)) (LangTag_region s))
| says_LangTag_variants : forall s, says ["LangTag"; "variants"] [vtag LangTagT s]
    (lift (vtag VariantsT) (LangTag_variants s))
| says_LangTag_extensions : forall s, says ["LangTag"; "extensions"] [vtag LangTagT s]
    (lift (vtag ExtensionsT) (LangTag_extensions s))
| says_LangTag_private_use : forall s, says ["LangTag"; "private_use"] [vtag LangTagT s]
    (lift (voption (vtag PrivateUseT)) (LangTag_private_use s))
| says_LangTag_private_use_subtags : forall s, says ["LangTag"; "private_use_subtags"] [vtag LangTagT s]
    (lift (viter_of "PrivateUseIter") (LangTag_private_use_subtags s))
| says_LangTag_is_normal : forall s, says ["LangTag"; "is_normal"] [vtag LangTagT s]
    (lift VBool (LangTag_is_normal s))
| says_LangTag_is_private_use : forall s, says ["LangTag"; "is_private_use"] [vtag LangTagT s]
    (lift VBool (LangTag_is_private_use s))
| says_LangTag_is_grandfathered : forall s, says ["LangTag"; "is_grandfathered"] [vtag LangTagT s]
    (lift VBool (LangTag_is_grandfathered s))
| says_LangTag_as_normal : forall s, says ["LangTag"; "as_normal"] [vtag LangTagT s]
    (lift (voption (vtag NormalLangTagT)) (LangTag_as_normal s))
| says_LangTag_as_private_use : forall s, says ["LangTag"; "as_private_use"] [vtag LangTagT s]
    (lift (voption (vtag PrivateUseT)) (LangTag_as_private_use s))
| says_LangTag_as_grandfathered : forall s, says ["LangTag"; "as_grandfathered"] [vtag LangTagT s]
    (lift (voption vgrandfathered) (LangTag_as_grandfathered s))
| says_LangTag_kind : forall s, says ["LangTag"; "kind"] [vtag LangTagT s]
    (lift vkind (LangTag_kind s))
| says_LangTag_as_typed : forall s, says ["LangTag"; "as_typed"] [vtag LangTagT s]
    (lift vtyped (LangTag_as_typed s))
| says_Typed_language : forall t, says ["TypedLangTag"; "language"] [vtyped t]
    (lift (voption (vtag LanguageT)) (Typed_language t))
| says_Typed_kind : forall t, says ["TypedLangTag"; "kind"] [vtyped t]
    (Ret (vkind (Typed_kind t), []))
| says_Typed_is_normal : forall t, says ["TypedLangTag"; "is_normal"] [vtyped t]
    (Ret (VBool (Typed_is_normal t), []))
| says_Typed_as_normal : forall t, says ["TypedLangTag"; "as_normal"] [vtyped t]
    (Ret (voption (vtag NormalLangTagT) (Typed_as_normal t), []))
| says_Kind_is_normal : forall k, says ["Kind"; "is_normal"] [vkind k]
    (Ret (VBool (Kind_is_normal k), []))
| says_Typed_is_private_use : forall t, says ["TypedLangTag"; "is_private_use"] [vtyped t]
    (Ret (VBool (Typed_is_private_use t), []))
| says_Typed_as_private_use : forall t, says ["TypedLangTag"; "as_private_use"] [vtyped t]
    (Ret (voption (vtag PrivateUseT) (Typed_as_private_use t), []))
| says_Kind_is_private_use : forall k, says ["Kind"; "is_private_use"] [vkind k]
    (Ret (VBool (Kind_is_private_use k), []))
| says_Typed_is_grandfathered : forall t, says ["TypedLangTag"; "is_grandfathered"] [vtyped t]
    (Ret (VBool (Typed_is_grandfathered t), []))
| says_Typed_as_grandfathered : forall t, says ["TypedLangTag"; "as_grandfathered"] [vtyped t]
    (Ret (voption vgrandfathered (Typed_as_grandfathered t), []))
| says_Kind_is_grandfathered : forall k, says ["Kind"; "is_grandfathered"] [vkind k]
    (Ret (VBool (Kind_is_grandfathered k), []))
| says_Grandfathered_new : forall s w, w = VStr \/ w = VBytes ->
    says ["GrandfatheredLangTag"; "new"] [w s]
    (lift (vgrandfathered_result w) (Grandfathered_new s))
| says_Grandfathered_try_from : forall s, says ["GrandfatheredLangTag"; "try_from"] [VBytes s]
    (lift (vgrandfathered_result (fun s => tuple1 "InvalidGrandfatheredTag" (VBytes s))) (Grandfathered_try_from s))
| says_Grandfathered_language : forall g, says ["GrandfatheredLangTag"; "language"] [vgrandfathered g]
    (Ret (voption (vtag LanguageT) (Grandfathered_language g), []))
| says_Grandfathered_as_bytes : forall g, says ["GrandfatheredLangTag"; "as_bytes"] [vgrandfathered g]
    (Ret (VBytes (Grandfathered_as_bytes g), []))
| says_Grandfathered_as_str : forall g, says ["GrandfatheredLangTag"; "as_str"] [vgrandfathered g]
    (Ret (VStr (Grandfathered_as_str g), []))
| says_Grandfathered_display : forall g l,
    says ["GrandfatheredLangTag"; "as"; "Display"; ""; "fmt"] [vgrandfathered g; VSink l]
    (Ret (okv VUnit, [VSink (l ++ Grandfathered_as_str g)]))
| says_Normal_language_end : forall s, says ["NormalLangTag"; "language_end"] [vtag NormalLangTagT s]
    (lift VNat (language_end s))
| says_Normal_script_range : forall s, says ["NormalLangTag"; "script_range"] [vtag NormalLangTagT s]
    (lift vrange_result (script_range s))
| says_Normal_region_range : forall s, says ["NormalLangTag"; "region_range"] [vtag NormalLangTagT s]
    (lift vrange_result (region_range s))
| says_Normal_variants_range : forall s, says ["NormalLangTag"; "variants_range"] [vtag NormalLangTagT s]
    (lift vrange (variants_range s))
| says_Normal_extensions_range : forall s, says ["NormalLangTag"; "extensions_range"] [vtag NormalLangTagT s]
    (lift vrange (extensions_range s))
| says_Normal_private_use_offset : forall s, says ["NormalLangTag"; "private_use_offset"] [vtag NormalLangTagT s]
    (lift (voption VNat) (private_use_offset s))
| says_Normal_language : forall s, says ["NormalLangTag"; "language"] [vtag NormalLangTagT s]
    (lift (vtag LanguageT) (NormalLangTag_language s))
| says_Normal_script : forall s, says ["NormalLangTag"; "script"] [vtag NormalLangTagT s]
    (lift (voption (vtag ScriptT)) (NormalLangTag_script s))
| says_Normal_region : forall s, says ["NormalLangTag"; "region"] [vtag NormalLangTagT s]
    (lift (voption (vtag RegionT)) (NormalLangTag_region s))
| says_Normal_variants : forall s, says ["NormalLangTag"; "variants"] [vtag NormalLangTagT s]
    (lift (vtag VariantsT) (NormalLangTag_variants s))
| says_Normal_extensions : forall s, says ["NormalLangTag"; "extensions"] [vtag NormalLangTagT s]
    (lift (vtag ExtensionsT) (NormalLangTag_extensions s))
| says_Normal_private_use : forall s, says ["NormalLangTag"; "private_use"] [vtag NormalLangTagT s]
    (lift (voption (vtag PrivateUseT)) (NormalLangTag_private_use s))
| says_Normal_private_use_subtags : forall s, says ["NormalLangTag"; "private_use_subtags"] [vtag NormalLangTagT s]
    (lift (viter_of "PrivateUseIter") (NormalLangTag_private_use_subtags s))
| says_find_list_end : forall s off fv f K, (forall M k o sub, length s + 4 <= M -> K <= k -> length sub <= length s
    -> call M crate k fv [VNat o; VStr sub] = lift VBool (f o sub)) ->
    muts crate fv = [] ->
    says ["find_list_end"] [VStr s; VNat off; fv]
    (lift VNat (find_list_end s off f))
| says_find_segment_end : forall s off, says ["find_segment_end"] [VStr s; VNat off]
    (lift VNat (find_segment_end s off))
| says_find_segment_start : forall s e, says ["find_segment_start"] [VStr s; VNat e]
    (lift VNat (find_segment_start s e))
| says_Singleton_new : forall c, says ["Singleton"; "new"] [VByte c]
    (Ret (vsingleton_result VByte (Singleton_new c), []))
| says_Singleton_try_from_u8 : forall c, says ["Singleton"; "as"; "TryFrom"; "u8"; "try_from"] [VByte c]
    (Ret (vsingleton_result VByte (Singleton_try_from_u8 c), []))
| says_Singleton_try_from_char : forall c, says ["Singleton"; "as"; "TryFrom"; "char"; "try_from"] [VChar c]
    (Ret (vsingleton_result VChar (Singleton_try_from_char c), []))
| says_Singleton_from_string : forall s, says ["Singleton"; "from_string"] [VStr s]
    (lift (vsingleton_result VStr) (Singleton_from_string s))
| says_Singleton_from_str : forall s, says ["Singleton"; "from_str"] [VStr s]
    (lift (vsingleton_result VStr) (Singleton_from_str s))
| says_Singleton_unwrap : forall b, says ["Singleton"; "unwrap"] [vsingleton b]
    (Ret (VByte (Singleton_unwrap b), []))
| says_Singleton_eq_u8 : forall a b, says ["Singleton"; "as"; "PartialEq"; "u8"; "eq"] [vsingleton a; VByte b]
    (Ret (VBool (Singleton_eq_u8 a b), []))
| says_Singleton_eq_char : forall a c, says ["Singleton"; "as"; "PartialEq"; "char"; "eq"] [vsingleton a; VChar c]
    (Ret (VBool (Singleton_eq_char a c), []))
| says_Singleton_display : forall b l, is_ascii_alphanumeric b = true ->
    says ["Singleton"; "as"; "Display"; ""; "fmt"] [vsingleton b; VSink l]
    (Ret (okv VUnit, [VSink (l ++ [b])]))
| says_Singleton_debug : forall b l, is_ascii_alphanumeric b = true ->
    says ["Singleton"; "as"; "Debug"; ""; "fmt"] [vsingleton b; VSink l]
    (Ret (okv VUnit, [VSink (l ++ [x27; b; x27])]))
| says_PrivateUseIter_new : forall s, says ["PrivateUseIter"; "new"] [VStr s]
    (Ret (viter_of "PrivateUseIter" (PrivateUseIter_new s), []))
| says_PrivateUse_iter : forall s, says ["PrivateUse"; "iter"] [vtag PrivateUseT s]
    (Ret (viter_of "PrivateUseIter" (PrivateUse_iter s), []))
| says_PrivateUseIter_empty : says ["PrivateUseIter"; "empty"] []
    (Ret (viter_of "PrivateUseIter" iter_default, []))
| says_PrivateUseIter_next : forall it, says ["PrivateUseIter"; "next"] [viter_of "PrivateUseIter" it]
    (lift_step (voption (vtag PrivateUseSubtagT)) (viter_of "PrivateUseIter") (PrivateUseIter_next it))
| says_ExtensionIter_new : forall s, says ["ExtensionIter"; "new"] [VStr s]
    (Ret (viter_of "ExtensionIter" (ExtensionIter_new s), []))
| says_Extension_iter : forall s, says ["Extension"; "iter"] [vtag ExtensionT s]
    (Ret (viter_of "ExtensionIter" (Extension_iter s), []))
| says_ExtensionIter_empty : says ["ExtensionIter"; "empty"] []
    (Ret (viter_of "ExtensionIter" iter_default, []))
| says_ExtensionIter_next : forall it, says ["ExtensionIter"; "next"] [viter_of "ExtensionIter" it]
    (lift_step (voption (vtag ExtensionSubtagT)) (viter_of "ExtensionIter") (ExtensionIter_next it))
| says_LanguageExtensionIter_new : forall s, says ["LanguageExtensionIter"; "new"] [VStr s]
    (Ret (viter_of "LanguageExtensionIter" (LanguageExtensionIter_new s), []))
| says_LanguageExtension_iter : forall s, says ["LanguageExtension"; "iter"] [vtag LanguageExtensionT s]
    (Ret (viter_of "LanguageExtensionIter" (LanguageExtension_iter s), []))
| says_LanguageExtensionIter_empty : says ["LanguageExtensionIter"; "empty"] []
    (Ret (viter_of "LanguageExtensionIter" iter_default, []))
| says_LanguageExtensionIter_next : forall it,
    says ["LanguageExtensionIter"; "next"] [viter_of "LanguageExtensionIter" it]
    (lift_step (voption (vtag ExtendedLangTagT)) (viter_of "LanguageExtensionIter") (LanguageExtensionIter_next it))
| says_ExtensionsIter_new : forall s, says ["ExtensionsIter"; "new"] [VStr s]
    (Ret (viter_of "ExtensionsIter" (ExtensionsIter_new s), []))
| says_Extensions_iter : forall s, says ["Extensions"; "iter"] [vtag ExtensionsT s]
    (Ret (viter_of "ExtensionsIter" (Extensions_iter s), []))
| says_ExtensionsIter_next : forall it, says ["ExtensionsIter"; "next"] [viter_of "ExtensionsIter" it]
    (lift_step (voption (vtag ExtensionT)) (viter_of "ExtensionsIter") (ExtensionsIter_next it))
| says_VariantsIter_new : forall s, says ["VariantsIter"; "new"] [VStr s]
    (Ret (vviter (VariantsIter_new s), []))
| says_Variants_iter : forall s, says ["Variants"; "iter"] [vtag VariantsT s]
    (Ret (vviter (Variants_iter s), []))
| says_VariantsIter_empty : says ["VariantsIter"; "empty"] []
    (Ret (vviter viter_default, []))
| says_VariantsIter_next : forall it, says ["VariantsIter"; "next"] [vviter it]
    (lift_step (voption (vtag VariantT)) vviter (VariantsIter_next it))
| says_VariantsIter_next_back : forall it, says ["VariantsIter"; "next_back"] [vviter it]
    (lift_step (voption (vtag VariantT)) vviter (VariantsIter_next_back it))
| says_Variants_first : forall s, says ["Variants"; "first"] [vtag VariantsT s]
    (lift (voption (vtag VariantT)) (Variants_first s))
| says_Variants_last : forall s, says ["Variants"; "last"] [vtag VariantsT s]
    (lift (voption (vtag VariantT)) (Variants_last s))
| says_Extension_singleton : forall s, says ["Extension"; "singleton"] [vtag ExtensionT s]
    (lift vsingleton (Extension_singleton s))
| says_Extensions_get : forall s c, says ["Extensions"; "get"] [vtag ExtensionsT s; vsingleton c]
    (lift (voption (vtag ExtensionT)) (Extensions_get s c))
| says_Extensions_iter_extension : forall s c,
    says ["Extensions"; "iter_extension"] [vtag ExtensionsT s; vsingleton c]
    (lift (viter_of "ExtensionIter") (Extensions_iter_extension s c))
| says_Language_primary : forall s, says ["Language"; "primary"] [vtag LanguageT s]
    (Ret (vtag PrimaryLanguageT (Language_primary s), []))
| says_Language_extension : forall s, says ["Language"; "extension"] [vtag LanguageT s]
    (Ret (voption (vtag LanguageExtensionT) (Language_extension s), []))
| says_Language_extension_subtags : forall s, says ["Language"; "extension_subtags"] [vtag LanguageT s]
    (Ret (viter_of "LanguageExtensionIter" (Language_extension_subtags s), [])).

Lemma runs_crate f args r N : (forall M n, rooms args <= M -> N <= n -> call M crate n (VPath f) args = r) -> runs f args r.
Proof. intros H. exists crate. split; [exact crate_is_the_source|]. intros M _ L. exists N. intros n. now apply H. Qed.
Lemma runs_inv f args r : runs f args r ->
  forall M, 64 <= M -> rooms args <= M -> exists N, forall n, N <= n -> call M crate n (VPath f) args = r.
Proof. intros (P & L & H). rewrite crate_is_the_source in L. injection L as <-. exact H. Qed.
Lemma runs_unique f args r r' : runs f args r -> runs f args r' -> r = r'.
Proof.
  intros H H'. destruct (runs_inv _ _ _ H (64 + rooms args) ltac:(lia) ltac:(lia)) as (N & X).
  destruct (runs_inv _ _ _ H' (64 + rooms args) ltac:(lia) ltac:(lia)) as (N' & X').
  rewrite <- (X (N + N') ltac:(lia)). apply X'. lia.
Qed.

Ltac roomy := match goal with F : rooms _ <= _ |- _ => cbn in F; lia end.
Theorem says_runs f args r : says f args r -> runs f args r.
Proof.
  intros H; destruct H.
  - (* into_smallcase *) apply (runs_crate _ _ _ (2000)); intros M n F L.
      apply (into_smallcase_src n c); first [lia|assumption|roomy].
  - (* case_insensitive_eq *) apply (runs_crate _ _ _ (2000 + 2 * length a)); intros M n F L.
      apply (case_insensitive_eq_src n a b); first [lia|assumption|roomy].
  - (* case_insensitive_hash *) apply (runs_crate _ _ _ (2000 + 2 * length s)); intros M n F L.
      apply (case_insensitive_hash_src n s l); first [lia|assumption|roomy].
  - (* case_insensitive_cmp *) apply (runs_crate _ _ _ (2000 + 2 * length a)); intros M n F L.
      apply (case_insensitive_cmp_src n a b); first [lia|assumption|roomy].
  - (* automaton_new *) apply (runs_crate _ _ _ (2000)); intros M n F L.
      apply (automaton_new_src n ty); first [lia|assumption|roomy].
  - (* push *) apply (runs_crate _ _ _ (2000)); intros M n F L. apply (push_src n ty q c); first [lia|assumption|roomy].
  - (* is_accepting *) apply (runs_crate _ _ _ (2000)); intros M n F L.
      apply (is_accepting_src n ty q); first [lia|assumption|roomy].
  - (* validate_bytes *) apply (runs_crate _ _ _ (2000 + 2 * length s)); intros M n F L.
      apply (validate_bytes_src ty n s); first [lia|assumption|roomy].
  - (* validate_str *) apply (runs_crate _ _ _ (2000 + 2 * length s)); intros M n F L.
      apply (validate_str_src ty n s); first [lia|assumption|roomy].
  - (* new_str *) apply (runs_crate _ _ _ (2000 + 2 * length s)); intros M n F L.
      exact (proj1 (@new_src M ty n s ltac:(lia) ltac:(roomy))).
  - (* new_bytes *) apply (runs_crate _ _ _ (2000 + 2 * length s)); intros M n F L.
      exact (proj2 (@new_src M ty n s ltac:(lia) ltac:(roomy))).
  - (* eq *) apply (runs_crate _ _ _ (2000 + 2 * length a)); intros M n F L.
      apply (eq_src ty n a b); first [lia|assumption|roomy].
  - (* partial_cmp *) apply (runs_crate _ _ _ (2000 + 2 * length a)); intros M n F L.
      apply (partial_cmp_src ty n a b); first [lia|assumption|roomy].
  - (* cmp *) apply (runs_crate _ _ _ (2000 + 2 * length a)); intros M n F L.
      apply (cmp_src ty n a b); first [lia|assumption|roomy].
  - (* hash *) apply (runs_crate _ _ _ (2000 + 2 * length a)); intros M n F L.
      apply (hash_src ty n a l); first [lia|assumption|roomy].
  - (* LangTag_language *) apply (runs_crate _ _ _ (2000 + 2 * length s)); intros M n F L.
      apply (LangTag_language_src n s); first [lia|assumption|roomy].
  - (* LangTag_script *) apply (runs_crate _ _ _ (2000 + 2 * length s)); intros M n F L.
      apply (LangTag_script_src n s); first [lia|assumption|roomy].
  - (* LangTag_region *) apply (runs_crate _ _ _ (2000 + 2 * length s)); intros M n F L.
      apply (LangTag_region_src n s); first [lia|assumption|roomy].
  - (* LangTag_variants *) apply (runs_crate _ _ _ (2000 + 2 * length s)); intros M n F L.
      apply (LangTag_variants_src n s); first [lia|assumption|roomy].
  - (* LangTag_extensions *) apply (runs_crate _ _ _ (2000 + 2 * length s)); intros M n F L.
      apply (LangTag_extensions_src n s); first [lia|assumption|roomy].
  - (* LangTag_private_use *) apply (runs_crate _ _ _ (2000 + 2 * length s)); intros M n F L.
      apply (LangTag_private_use_src n s); first [lia|assumption|roomy].
  - (* LangTag_private_use_subtags *) apply (runs_crate _ _ _ (2000 + 2 * length s)); intros M n F L.
      apply (LangTag_private_use_subtags_src n s); first [lia|assumption|roomy].
  - (* LangTag_is_normal *) apply (runs_crate _ _ _ (2000 + 2 * length s)); intros M n F L.
      apply (LangTag_is_normal_src n s); first [lia|assumption|roomy].
  - (* LangTag_is_private_use *) apply (runs_crate _ _ _ (2000 + 2 * length s)); intros M n F L.
      apply (LangTag_is_private_use_src n s); first [lia|assumption|roomy].
  - (* LangTag_is_grandfathered *) apply (runs_crate _ _ _ (2000 + 2 * length s)); intros M n F L.
      apply (LangTag_is_grandfathered_src n s); first [lia|assumption|roomy].
  - (* LangTag_as_normal *) apply (runs_crate _ _ _ (2000 + 2 * length s)); intros M n F L.
      apply (LangTag_as_normal_src n s); first [lia|assumption|roomy].
  - (* LangTag_as_private_use *) apply (runs_crate _ _ _ (2000 + 2 * length s)); intros M n F L.
      apply (LangTag_as_private_use_src n s); first [lia|assumption|roomy].
  - (* LangTag_as_grandfathered *) apply (runs_crate _ _ _ (2000 + 2 * length s)); intros M n F L.
      apply (LangTag_as_grandfathered_src n s); first [lia|assumption|roomy].
  - (* LangTag_kind *) apply (runs_crate _ _ _ (2000 + 2 * length s)); intros M n F L.
      apply (LangTag_kind_src n s); first [lia|assumption|roomy].
  - (* LangTag_as_typed *) apply (runs_crate _ _ _ (2000 + 2 * length s)); intros M n F L.
      apply (LangTag_as_typed_src n s); first [lia|assumption|roomy].
  - (* Typed_language *) apply (runs_crate _ _ _ (2000 + 2 * length (match t with TNormal s => s | _
      => [] end))); intros M n F L. apply (Typed_language_src n t); [lia|destruct t; exact I || roomy].
  - (* Typed_kind *) apply (runs_crate _ _ _ (2000)); intros M n F L. apply (Typed_kind_src n t); first [lia|assumption|roomy].
  - (* Typed_is_normal *) apply (runs_crate _ _ _ (2000)); intros M n F L. exact (proj1 (Typed_is_src n t ltac:(lia))).
  - (* Typed_as_normal *) apply (runs_crate _ _ _ (2000)); intros M n F L. exact (proj1 (Typed_as_src n t ltac:(lia))).
  - (* Kind_is_normal *) apply (runs_crate _ _ _ (2000)); intros M n F L. exact (proj1 (Kind_is_src n k ltac:(lia))).
  - (* Typed_is_private_use *) apply (runs_crate _ _ _ (2000)); intros M n F L.
      exact (proj1 (proj2 (Typed_is_src n t ltac:(lia)))).
  - (* Typed_as_private_use *) apply (runs_crate _ _ _ (2000)); intros M n F L.
      exact (proj1 (proj2 (Typed_as_src n t ltac:(lia)))).
  - (* Kind_is_private_use *) apply (runs_crate _ _ _ (2000)); intros M n F L.
      exact (proj1 (proj2 (Kind_is_src n k ltac:(lia)))).
  - (* Typed_is_grandfathered *) apply (runs_crate _ _ _ (2000)); intros M n F L.
      exact (proj2 (proj2 (Typed_is_src n t ltac:(lia)))).
  - (* Typed_as_grandfathered *) apply (runs_crate _ _ _ (2000)); intros M n F L.
      exact (proj2 (proj2 (Typed_as_src n t ltac:(lia)))).
  - (* Kind_is_grandfathered *) apply (runs_crate _ _ _ (2000)); intros M n F L.
      exact (proj2 (proj2 (Kind_is_src n k ltac:(lia)))).
  - (* Grandfathered_new *) apply (runs_crate _ _ _ (2000 + 2 * length s)); intros M n F L.
      apply (Grandfathered_new_src n s w); first [lia|assumption|roomy].
  - (* Grandfathered_try_from *) apply (runs_crate _ _ _ (2000 + 2 * length s)); intros M n F L.
      apply (Grandfathered_try_from_src n s); first [lia|assumption|roomy].
  - (* Grandfathered_language *) apply (runs_crate _ _ _ (2000)); intros M n F L.
      apply (Grandfathered_language_src n g); first [lia|assumption|roomy].
  - (* Grandfathered_as_bytes *) apply (runs_crate _ _ _ (2000)); intros M n F L.
      apply (Grandfathered_as_bytes_src n g); first [lia|assumption|roomy].
  - (* Grandfathered_as_str *) apply (runs_crate _ _ _ (2000)); intros M n F L.
      apply (Grandfathered_as_str_src n g); first [lia|assumption|roomy].
  - (* Grandfathered_display *) apply (runs_crate _ _ _ (2000)); intros M n F L.
      apply (Grandfathered_display_src n g l); first [lia|assumption|roomy].
  - (* Normal_language_end *) apply (runs_crate _ _ _ (2000 + 2 * length s)); intros M n F L.
      apply (language_end_src n s); first [lia|assumption|roomy].
  - (* Normal_script_range *) apply (runs_crate _ _ _ (2000 + 2 * length s)); intros M n F L.
      apply (script_range_src n s); first [lia|assumption|roomy].
  - (* Normal_region_range *) apply (runs_crate _ _ _ (2000 + 2 * length s)); intros M n F L.
      apply (region_range_src n s); first [lia|assumption|roomy].
  - (* Normal_variants_range *) apply (runs_crate _ _ _ (2000 + 2 * length s)); intros M n F L.
      apply (variants_range_src n s); first [lia|assumption|roomy].
  - (* Normal_extensions_range *) apply (runs_crate _ _ _ (2000 + 2 * length s)); intros M n F L.
      apply (extensions_range_src n s); first [lia|assumption|roomy].
  - (* Normal_private_use_offset *) apply (runs_crate _ _ _ (2000 + 2 * length s)); intros M n F L.
      apply (private_use_offset_src n s); first [lia|assumption|roomy].
  - (* Normal_language *) apply (runs_crate _ _ _ (2000 + 2 * length s)); intros M n F L.
      apply (NormalLangTag_language_src n s); first [lia|assumption|roomy].
  - (* Normal_script *) apply (runs_crate _ _ _ (2000 + 2 * length s)); intros M n F L.
      apply (NormalLangTag_script_src n s); first [lia|assumption|roomy].
  - (* Normal_region *) apply (runs_crate _ _ _ (2000 + 2 * length s)); intros M n F L.
      apply (NormalLangTag_region_src n s); first [lia|assumption|roomy].
  - (* Normal_variants *) apply (runs_crate _ _ _ (2000 + 2 * length s)); intros M n F L.
      apply (NormalLangTag_variants_src n s); first [lia|assumption|roomy].
  - (* Normal_extensions *) apply (runs_crate _ _ _ (2000 + 2 * length s)); intros M n F L.
      apply (NormalLangTag_extensions_src n s); first [lia|assumption|roomy].
  - (* Normal_private_use *) apply (runs_crate _ _ _ (2000 + 2 * length s)); intros M n F L.
      apply (NormalLangTag_private_use_src n s); first [lia|assumption|roomy].
  - (* Normal_private_use_subtags *) apply (runs_crate _ _ _ (2000 + 2 * length s)); intros M n F L.
      apply (NormalLangTag_private_use_subtags_src n s); first [lia|assumption|roomy].
  - (* find_list_end *) apply (runs_crate _ _ _ (2000 + 2 * length s + K)); intros M n F L.
      apply (find_list_end_src n s off fv f K); [intros; apply H; [roomy|..]|..]; first [lia|assumption|roomy].
  - (* find_segment_end *) apply (runs_crate _ _ _ (2000 + 2 * length s)); intros M n F L.
      apply (find_segment_end_src n s off); first [lia|assumption|roomy].
  - (* find_segment_start *) apply (runs_crate _ _ _ (2000 + 2 * length s + e)); intros M n F L.
      apply (find_segment_start_src n s e); first [lia|assumption|roomy].
  - (* Singleton_new *) apply (runs_crate _ _ _ (2000)); intros M n F L.
      apply (Singleton_new_src n c); first [lia|assumption|roomy].
  - (* Singleton_try_from_u8 *) apply (runs_crate _ _ _ (2000)); intros M n F L.
      apply (Singleton_try_from_u8_src n c); first [lia|assumption|roomy].
  - (* Singleton_try_from_char *) apply (runs_crate _ _ _ (2000)); intros M n F L.
      apply (Singleton_try_from_char_src n c); first [lia|assumption|roomy].
  - (* Singleton_from_string *) apply (runs_crate _ _ _ (2000 + 2 * length s)); intros M n F L.
      apply (Singleton_from_string_src n s); first [lia|assumption|roomy].
  - (* Singleton_from_str *) apply (runs_crate _ _ _ (2000 + 2 * length s)); intros M n F L.
      apply (Singleton_from_str_src n s); first [lia|assumption|roomy].
  - (* Singleton_unwrap *) apply (runs_crate _ _ _ (2000)); intros M n F L.
      apply (Singleton_unwrap_src n b); first [lia|assumption|roomy].
  - (* Singleton_eq_u8 *) apply (runs_crate _ _ _ (2000)); intros M n F L.
      apply (Singleton_eq_u8_src n a b); first [lia|assumption|roomy].
  - (* Singleton_eq_char *) apply (runs_crate _ _ _ (2000)); intros M n F L.
      apply (Singleton_eq_char_src n a c); first [lia|assumption|roomy].
  - (* Singleton_display *) apply (runs_crate _ _ _ (2000)); intros M n F L.
      apply (Singleton_display_src n b l); first [lia|assumption|roomy].
  - (* Singleton_debug *) apply (runs_crate _ _ _ (2000)); intros M n F L.
      apply (Singleton_debug_src n b l); first [lia|assumption|roomy].
  - (* PrivateUseIter_new *) apply (runs_crate _ _ _ (2000 + 2 * length s)); intros M n F L.
      apply (PrivateUseIter_new_src n s); first [lia|assumption|roomy].
  - (* PrivateUse_iter *) apply (runs_crate _ _ _ (2000 + 2 * length s)); intros M n F L.
      apply (PrivateUse_iter_src n s); first [lia|assumption|roomy].
  - (* PrivateUseIter_empty *) apply (runs_crate _ _ _ (2000)); intros M n F L.
      apply (PrivateUseIter_empty_src n); first [lia|assumption|roomy].
  - (* PrivateUseIter_next *) apply (runs_crate _ _ _ (2000 + 2 * length (it_data it))); intros M n F L.
      apply (PrivateUseIter_next_src n it); first [lia|assumption|roomy].
  - (* ExtensionIter_new *) apply (runs_crate _ _ _ (2000 + 2 * length s)); intros M n F L.
      apply (ExtensionIter_new_src n s); first [lia|assumption|roomy].
  - (* Extension_iter *) apply (runs_crate _ _ _ (2000 + 2 * length s)); intros M n F L.
      apply (Extension_iter_src n s); first [lia|assumption|roomy].
  - (* ExtensionIter_empty *) apply (runs_crate _ _ _ (2000)); intros M n F L.
      apply (ExtensionIter_empty_src n); first [lia|assumption|roomy].
  - (* ExtensionIter_next *) apply (runs_crate _ _ _ (2000 + 2 * length (it_data it))); intros M n F L.
      apply (ExtensionIter_next_src n it); first [lia|assumption|roomy].
  - (* LanguageExtensionIter_new *) apply (runs_crate _ _ _ (2000 + 2 * length s)); intros M n F L.
      apply (LanguageExtensionIter_new_src n s); first [lia|assumption|roomy].
  - (* LanguageExtension_iter *) apply (runs_crate _ _ _ (2000 + 2 * length s)); intros M n F L.
      apply (LanguageExtension_iter_src n s); first [lia|assumption|roomy].
  - (* LanguageExtensionIter_empty *) apply (runs_crate _ _ _ (2000)); intros M n F L.
      apply (LanguageExtensionIter_empty_src n); first [lia|assumption|roomy].
  - (* LanguageExtensionIter_next *) apply (runs_crate _ _ _ (2000 + 2 * length (it_data it))); intros M n F L.
      apply (LanguageExtensionIter_next_src n it); first [lia|assumption|roomy].
  - (* ExtensionsIter_new *) apply (runs_crate _ _ _ (2000 + 2 * length s)); intros M n F L.
      apply (ExtensionsIter_new_src n s); first [lia|assumption|roomy].
  - (* Extensions_iter *) apply (runs_crate _ _ _ (2000 + 2 * length s)); intros M n F L.
      apply (Extensions_iter_src n s); first [lia|assumption|roomy].
  - (* ExtensionsIter_next *) apply (runs_crate _ _ _ (2000 + 2 * length (it_data it))); intros M n F L.
      apply (ExtensionsIter_next_src n it); first [lia|assumption|roomy].
  - (* VariantsIter_new *) apply (runs_crate _ _ _ (2000 + 2 * length s)); intros M n F L.
      apply (VariantsIter_new_src n s); first [lia|assumption|roomy].
  - (* Variants_iter *) apply (runs_crate _ _ _ (2000 + 2 * length s)); intros M n F L.
      apply (Variants_iter_src n s); first [lia|assumption|roomy].
  - (* VariantsIter_empty *) apply (runs_crate _ _ _ (2000)); intros M n F L.
      apply (VariantsIter_empty_src n); first [lia|assumption|roomy].
  - (* VariantsIter_next *) apply (runs_crate _ _ _ (2000 + length (v_data it))); intros M n F L.
      apply (VariantsIter_next_src n it); first [lia|assumption|roomy].
  - (* VariantsIter_next_back *) apply (runs_crate _ _ _ (2000 + v_end it)); intros M n F L.
      apply (VariantsIter_next_back_src n it); first [lia|assumption|roomy].
  - (* Variants_first *) apply (runs_crate _ _ _ (2000 + 2 * length s)); intros M n F L.
      apply (Variants_first_src n s); first [lia|assumption|roomy].
  - (* Variants_last *) apply (runs_crate _ _ _ (2000 + 2 * length s)); intros M n F L.
      apply (Variants_last_src n s); first [lia|assumption|roomy].
  - (* Extension_singleton *) apply (runs_crate _ _ _ (2000 + 2 * length s)); intros M n F L.
      apply (Extension_singleton_src n s); first [lia|assumption|roomy].
  - (* Extensions_get *) apply (runs_crate _ _ _ (2000 + 2 * length s)); intros M n F L.
      apply (Extensions_get_src n s c); first [lia|assumption|roomy].
  - (* Extensions_iter_extension *) apply (runs_crate _ _ _ (2000 + 2 * length s)); intros M n F L.
      apply (Extensions_iter_extension_src n s c); first [lia|assumption|roomy].
  - (* Language_primary *) apply (runs_crate _ _ _ (2000 + 2 * length s)); intros M n F L.
      apply (Language_primary_src n s); first [lia|assumption|roomy].
  - (* Language_extension *) apply (runs_crate _ _ _ (2000 + 2 * length s)); intros M n F L.
      apply (Language_extension_src n s); first [lia|assumption|roomy].
  - (* Language_extension_subtags *) apply (runs_crate _ _ _ (2000 + 2 * length s)); intros M n F L.
      apply (Language_extension_subtags_src n s); first [lia|assumption|roomy].
Qed.

(** Every function of the text is among them: for each, a path that resolves to it and about which the model says
    something. *)
Definition new_types : list newtype :=
  [ LangTagT; PrivateUseT; PrivateUseSubtagT; NormalLangTagT; LanguageT; PrimaryLanguageT; LanguageExtensionT;
    ExtendedLangTagT; ScriptT; RegionT; VariantT; VariantsT; ExtensionT; ExtensionSubtagT; ExtensionsT ].
Definition paths : list (list string) :=
  flat_map (fun ty => [[grammar_type ty; "new"];
    [grammar_type ty; "push"];
    [grammar_type ty; "is_accepting"];
    [grammar_type ty; "validate_bytes"];
    [grammar_type ty; "validate_str"];
    [type_of ty; "eq"];
    [type_of ty; "partial_cmp"];
    [type_of ty; "cmp"];
    [type_of ty; "hash"]]) new_types ++
  [["into_smallcase"];
   ["case_insensitive_eq"];
   ["case_insensitive_hash"];
   ["case_insensitive_cmp"];
   ["LangTag"; "language"];
   ["LangTag"; "script"];
   ["LangTag"; "region"];
   ["LangTag"; "variants"];
   ["LangTag"; "extensions"];
   ["LangTag"; "private_use"];
   ["LangTag"; "private_use_subtags"];
   ["LangTag"; "is_normal"];
   ["LangTag"; "is_private_use"];
   ["LangTag"; "is_grandfathered"];
   ["LangTag"; "as_normal"];
   ["LangTag"; "as_private_use"];
   ["LangTag"; "as_grandfathered"];
   ["LangTag"; "kind"];
   ["LangTag"; "as_typed"];
   ["TypedLangTag"; "language"];
   ["TypedLangTag"; "kind"];
   ["TypedLangTag"; "is_normal"];
   ["TypedLangTag"; "as_normal"];
   ["Kind"; "is_normal"];
   ["TypedLangTag"; "is_private_use"];
   ["TypedLangTag"; "as_private_use"];
   ["Kind"; "is_private_use"];
   ["TypedLangTag"; "is_grandfathered"];
   ["TypedLangTag"; "as_grandfathered"];
   ["Kind"; "is_grandfathered"];
   ["GrandfatheredLangTag"; "new"];
   ["GrandfatheredLangTag"; "try_from"];
   ["GrandfatheredLangTag"; "language"];
   ["GrandfatheredLangTag"; "as_bytes"];
   ["GrandfatheredLangTag"; "as_str"];
   ["GrandfatheredLangTag"; "as"; "Display"; ""; "fmt"];
   ["NormalLangTag"; "language_end"];
   ["NormalLangTag"; "script_range"];
   ["NormalLangTag"; "region_range"];
   ["NormalLangTag"; "variants_range"];
   ["NormalLangTag"; "extensions_range"];
   ["NormalLangTag"; "private_use_offset"];
   ["NormalLangTag"; "language"];
   ["NormalLangTag"; "script"];
   ["NormalLangTag"; "region"];
   ["NormalLangTag"; "variants"];
   ["NormalLangTag"; "extensions"];
   ["NormalLangTag"; "private_use"];
   ["NormalLangTag"; "private_use_subtags"];
   ["find_list_end"];
   ["find_segment_end"];
   ["find_segment_start"];
   ["Singleton"; "new"];
   ["Singleton"; "as"; "TryFrom"; "u8"; "try_from"];
   ["Singleton"; "as"; "TryFrom"; "char"; "try_from"];
   ["Singleton"; "from_string"];
   ["Singleton"; "from_str"];
   ["Singleton"; "unwrap"];
   ["Singleton"; "as"; "PartialEq"; "u8"; "eq"];
   ["Singleton"; "as"; "PartialEq"; "char"; "eq"];
   ["Singleton"; "as"; "Display"; ""; "fmt"];
   ["Singleton"; "as"; "Debug"; ""; "fmt"];
   ["PrivateUseIter"; "new"];
   ["PrivateUse"; "iter"];
   ["PrivateUseIter"; "empty"];
   ["PrivateUseIter"; "next"];
   ["ExtensionIter"; "new"];
   ["Extension"; "iter"];
   ["ExtensionIter"; "empty"];
   ["ExtensionIter"; "next"];
   ["LanguageExtensionIter"; "new"];
   ["LanguageExtension"; "iter"];
   ["LanguageExtensionIter"; "empty"];
   ["LanguageExtensionIter"; "next"];
   ["ExtensionsIter"; "new"];
   ["Extensions"; "iter"];
   ["ExtensionsIter"; "next"];
   ["VariantsIter"; "new"];
   ["Variants"; "iter"];
   ["VariantsIter"; "empty"];
   ["VariantsIter"; "next"];
   ["VariantsIter"; "next_back"];
   ["Variants"; "first"];
   ["Variants"; "last"];
   ["Extension"; "singleton"];
   ["Extensions"; "get"];
   ["Extensions"; "iter_extension"];
   ["Language"; "primary"];
   ["Language"; "extension"];
   ["Language"; "extension_subtags"]].
Definition path_matches (e : entry) (f : list string) : bool :=
  match f with
  | [m] => String.eqb (en_type e) "" && String.eqb (fn_name (en_fn e)) m
  | [t; m] => String.eqb (en_type e) t && String.eqb (fn_name (en_fn e)) m
  | [t; "as"; r; x; m] => String.eqb (en_type e) t && is_trait (en_trait e) r x && String.eqb (fn_name (en_fn e)) m
  | _ => false
  end.
Fixpoint position {A} (p : A -> bool) (l : list A) : nat :=
  match l with a :: l' => if p a then 0 else S (position p l') | [] => 0 end.
Definition index : list nat := Eval vm_compute in map (fun e => position (path_matches e) paths) (fns crate).
Lemma index_resolves :
  map (fun i => resolve crate (nth i paths [])) index = map (fun e => TgFn (en_type e) (en_fn e)) (fns crate).
Proof. vm_compute. reflexivity. Qed.
Lemma index_bounded : forallb (fun i => i <? length paths) index = true.
Proof. vm_compute. reflexivity. Qed.

Lemma paths_said : Forall (fun f => exists args r, says f args r) paths.
Proof.
  assert (Q : forall ty, (0 < states ty)%N) by (intros []; reflexivity).
  unfold paths. apply Forall_app. split.
  - apply Forall_flat_map. apply Forall_forall. intros ty _.
    apply Forall_cons; [do 2 eexists; exact (says_automaton_new ty)|].
    apply Forall_cons; [do 2 eexists; exact (says_push ty 0%N 65%N (Q ty))|].
    apply Forall_cons; [do 2 eexists; exact (says_is_accepting ty 0%N (Q ty))|].
    apply Forall_cons; [do 2 eexists; exact (says_validate_bytes ty [])|].
    apply Forall_cons; [do 2 eexists; exact (says_validate_str ty [])|].
    apply Forall_cons; [do 2 eexists; exact (says_eq ty [] [])|].
    apply Forall_cons; [do 2 eexists; exact (says_partial_cmp ty [] [])|].
    apply Forall_cons; [do 2 eexists; exact (says_cmp ty [] [])|].
    apply Forall_cons; [do 2 eexists; exact (says_hash ty [] [])|].
    apply Forall_nil.
  -
    apply Forall_cons; [do 2 eexists; exact (says_into_smallcase x61)|].
    apply Forall_cons; [do 2 eexists; exact (says_case_insensitive_eq [] [])|].
    apply Forall_cons; [do 2 eexists; exact (says_case_insensitive_hash [] [])|].
    apply Forall_cons; [do 2 eexists; exact (says_case_insensitive_cmp [] [])|].
    apply Forall_cons; [do 2 eexists; exact (says_LangTag_language [])|].
    apply Forall_cons; [do 2 eexists; exact (says_LangTag_script [])|].
    apply Forall_cons; [do 2 eexists; exact (says_LangTag_region [])|].
    apply Forall_cons; [do 2 eexists; exact (says_LangTag_variants [])|].
    apply Forall_cons; [do 2 eexists; exact (says_LangTag_extensions [])|].
    apply Forall_cons; [do 2 eexists; exact (says_LangTag_private_use [])|].
    apply Forall_cons; [do 2 eexists; exact (says_LangTag_private_use_subtags [])|].
    apply Forall_cons; [do 2 eexists; exact (says_LangTag_is_normal [])|].
    apply Forall_cons; [do 2 eexists; exact (says_LangTag_is_private_use [])|].
    apply Forall_cons; [do 2 eexists; exact (says_LangTag_is_grandfathered [])|].
    apply Forall_cons; [do 2 eexists; exact (says_LangTag_as_normal [])|].
    apply Forall_cons; [do 2 eexists; exact (says_LangTag_as_private_use [])|].
    apply Forall_cons; [do 2 eexists; exact (says_LangTag_as_grandfathered [])|].
    apply Forall_cons; [do 2 eexists; exact (says_LangTag_kind [])|].
    apply Forall_cons; [do 2 eexists; exact (says_LangTag_as_typed [])|].
    apply Forall_cons; [do 2 eexists; exact (says_Typed_language (TPrivateUse []))|].
    apply Forall_cons; [do 2 eexists; exact (says_Typed_kind (TPrivateUse []))|].
    apply Forall_cons; [do 2 eexists; exact (says_Typed_is_normal (TPrivateUse []))|].
    apply Forall_cons; [do 2 eexists; exact (says_Typed_as_normal (TPrivateUse []))|].
    apply Forall_cons; [do 2 eexists; exact (says_Kind_is_normal KNormal)|].
    apply Forall_cons; [do 2 eexists; exact (says_Typed_is_private_use (TPrivateUse []))|].
    apply Forall_cons; [do 2 eexists; exact (says_Typed_as_private_use (TPrivateUse []))|].
    apply Forall_cons; [do 2 eexists; exact (says_Kind_is_private_use KNormal)|].
    apply Forall_cons; [do 2 eexists; exact (says_Typed_is_grandfathered (TPrivateUse []))|].
    apply Forall_cons; [do 2 eexists; exact (says_Typed_as_grandfathered (TPrivateUse []))|].
    apply Forall_cons; [do 2 eexists; exact (says_Kind_is_grandfathered KNormal)|].
    apply Forall_cons; [do 2 eexists; exact (says_Grandfathered_new [] VStr (or_introl eq_refl))|].
    apply Forall_cons; [do 2 eexists; exact (says_Grandfathered_try_from [])|].
    apply Forall_cons; [do 2 eexists; exact (says_Grandfathered_language IAmi)|].
    apply Forall_cons; [do 2 eexists; exact (says_Grandfathered_as_bytes IAmi)|].
    apply Forall_cons; [do 2 eexists; exact (says_Grandfathered_as_str IAmi)|].
    apply Forall_cons; [do 2 eexists; exact (says_Grandfathered_display IAmi [])|].
    apply Forall_cons; [do 2 eexists; exact (says_Normal_language_end [])|].
    apply Forall_cons; [do 2 eexists; exact (says_Normal_script_range [])|].
    apply Forall_cons; [do 2 eexists; exact (says_Normal_region_range [])|].
    apply Forall_cons; [do 2 eexists; exact (says_Normal_variants_range [])|].
    apply Forall_cons; [do 2 eexists; exact (says_Normal_extensions_range [])|].
    apply Forall_cons; [do 2 eexists; exact (says_Normal_private_use_offset [])|].
    apply Forall_cons; [do 2 eexists; exact (says_Normal_language [])|].
    apply Forall_cons; [do 2 eexists; exact (says_Normal_script [])|].
    apply Forall_cons; [do 2 eexists; exact (says_Normal_region [])|].
    apply Forall_cons; [do 2 eexists; exact (says_Normal_variants [])|].
    apply Forall_cons; [do 2 eexists; exact (says_Normal_extensions [])|].
    apply Forall_cons; [do 2 eexists; exact (says_Normal_private_use [])|].
    apply Forall_cons; [do 2 eexists; exact (says_Normal_private_use_subtags [])|].
    apply Forall_cons.
    { do 2 eexists. apply (says_find_list_end [] 0 (VClosure [] [PWild; PWild] (EBool true)) (fun _ _
        => Ret true) 5); [|reflexivity].
      intros M k o sub _ K _. do 5 (destruct k as [|k]; [lia|]). reflexivity. }
    apply Forall_cons; [do 2 eexists; exact (says_find_segment_end [] 0)|].
    apply Forall_cons; [do 2 eexists; exact (says_find_segment_start [] 0)|].
    apply Forall_cons; [do 2 eexists; exact (says_Singleton_new x61)|].
    apply Forall_cons; [do 2 eexists; exact (says_Singleton_try_from_u8 x61)|].
    apply Forall_cons; [do 2 eexists; exact (says_Singleton_try_from_char 65%N)|].
    apply Forall_cons; [do 2 eexists; exact (says_Singleton_from_string [])|].
    apply Forall_cons; [do 2 eexists; exact (says_Singleton_from_str [])|].
    apply Forall_cons; [do 2 eexists; exact (says_Singleton_unwrap x61)|].
    apply Forall_cons; [do 2 eexists; exact (says_Singleton_eq_u8 x61 x61)|].
    apply Forall_cons; [do 2 eexists; exact (says_Singleton_eq_char x61 65%N)|].
    apply Forall_cons; [do 2 eexists; exact (says_Singleton_display x61 [] eq_refl)|].
    apply Forall_cons; [do 2 eexists; exact (says_Singleton_debug x61 [] eq_refl)|].
    apply Forall_cons; [do 2 eexists; exact (says_PrivateUseIter_new [])|].
    apply Forall_cons; [do 2 eexists; exact (says_PrivateUse_iter [])|].
    apply Forall_cons; [do 2 eexists; exact (says_PrivateUseIter_empty )|].
    apply Forall_cons; [do 2 eexists; exact (says_PrivateUseIter_next (Iter [] 0))|].
    apply Forall_cons; [do 2 eexists; exact (says_ExtensionIter_new [])|].
    apply Forall_cons; [do 2 eexists; exact (says_Extension_iter [])|].
    apply Forall_cons; [do 2 eexists; exact (says_ExtensionIter_empty )|].
    apply Forall_cons; [do 2 eexists; exact (says_ExtensionIter_next (Iter [] 0))|].
    apply Forall_cons; [do 2 eexists; exact (says_LanguageExtensionIter_new [])|].
    apply Forall_cons; [do 2 eexists; exact (says_LanguageExtension_iter [])|].
    apply Forall_cons; [do 2 eexists; exact (says_LanguageExtensionIter_empty )|].
    apply Forall_cons; [do 2 eexists; exact (says_LanguageExtensionIter_next (Iter [] 0))|].
    apply Forall_cons; [do 2 eexists; exact (says_ExtensionsIter_new [])|].
    apply Forall_cons; [do 2 eexists; exact (says_Extensions_iter [])|].
    apply Forall_cons; [do 2 eexists; exact (says_ExtensionsIter_next (Iter [] 0))|].
    apply Forall_cons; [do 2 eexists; exact (says_VariantsIter_new [])|].
    apply Forall_cons; [do 2 eexists; exact (says_Variants_iter [])|].
    apply Forall_cons; [do 2 eexists; exact (says_VariantsIter_empty )|].
    apply Forall_cons; [do 2 eexists; exact (says_VariantsIter_next (VIter [] 0 0))|].
    apply Forall_cons; [do 2 eexists; exact (says_VariantsIter_next_back (VIter [] 0 0))|].
    apply Forall_cons; [do 2 eexists; exact (says_Variants_first [])|].
    apply Forall_cons; [do 2 eexists; exact (says_Variants_last [])|].
    apply Forall_cons; [do 2 eexists; exact (says_Extension_singleton [])|].
    apply Forall_cons; [do 2 eexists; exact (says_Extensions_get [] x61)|].
    apply Forall_cons; [do 2 eexists; exact (says_Extensions_iter_extension [] x61)|].
    apply Forall_cons; [do 2 eexists; exact (says_Language_primary [])|].
    apply Forall_cons; [do 2 eexists; exact (says_Language_extension [])|].
    apply Forall_cons; [do 2 eexists; exact (says_Language_extension_subtags [])|].
    apply Forall_nil.
Qed.

Theorem every_function e : In e (fns crate) ->
  exists f args r, says f args r /\ resolve crate f = TgFn (en_type e) (en_fn e).
Proof.
  intros E. assert (X : In (TgFn (en_type e) (en_fn e)) (map (fun e => TgFn (en_type e) (en_fn e)) (fns crate)))
    by (apply in_map_iff; exists e; auto).
  rewrite <- index_resolves in X. apply in_map_iff in X as (i & R & I).
  pose proof (proj1 (forallb_forall _ _) index_bounded i I) as B. apply Nat.ltb_lt in B.
  destruct (proj1 (Forall_forall _ _) paths_said (nth i paths []) (nth_In _ _ B)) as (args & r & S).
  exists (nth i paths []), args, r. auto.
Qed.
