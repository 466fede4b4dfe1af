(** grandfathered.rs (parsing), lib.rs and the comparisons of the fifteen newtypes, as the source text gives them. *)
From Verif Require Import Base Validate Utils Normal Grandfathered LangTag Derived NoOverflow Newtypes
  RustSyntax RustEval RustProgram RustRefine RustGrammar RustValidate RustNormal RustAccess RustTags.
Open Scope string_scope.
Open Scope nat_scope.
Open Scope list_scope.

(** * 1. GrandfatheredLangTag::new *)

Definition vgrandfathered_result (w : bytes -> value) (r : result grandfathered bytes) : value :=
  match r with Ok g => okv (vgrandfathered g) | Err s => errv (w s) end.

Ltac tidy ::=
  cbn [eval_step call_step run_fn eval_path eval_args eval_fields eval_arms eval_stmts done pure andthen scoped looping
       bind omap lookup update restore minus_len drop_len String.eqb Ascii.eqb Bool.eqb match_pat bind_pats app fst snd
       write_back keep fn_muts param_names bind_params fn_self fn_params fn_ret fn_body fn_name map last self_path
       assign binary cast make_range index_value field items method0 method1 method_muts orb tl tuple1 some none okv errv
       rev negb andb default_of vtag type_of vsingleton vsingleton_result
       vrange range vrange_result voption vgrandfathered_result].

Lemma Grandfathered_try_from_src {M} n s :
  100 <= n ->
  call M crate n (VPath ["GrandfatheredLangTag"; "try_from"]) [VBytes s] =
  lift (vgrandfathered_result (fun s => tuple1 "InvalidGrandfatheredTag" (VBytes s))) (Grandfathered_try_from s).
Proof.
  intro Hn. fuel n 50. enter. do 3 step. rewrite GRANDFATHERED_src by (reflexivity || lia). tidy_all.
  match goal with
  | |- context [eval_for ?ev ?e ?p ?x (map vgrandfathered GRANDFATHERED)] =>
    assert (forall l, eval_for ev e p x (map vgrandfathered l) =
      let! r := try_from_loop l s in
      Ret (e, match r with Ok g => Returned (okv (vgrandfathered g)) | Err _ => Done VUnit end)) as L
  end.
  { induction l as [|g l IH]; [reflexivity|]. cbn [map eval_for try_from_loop]. run.
    rewrite Grandfathered_as_bytes_src by lia. run.
    rewrite case_insensitive_eq_src by lia. unfold lift.
    destruct (case_insensitive_eq (Grandfathered_as_bytes g) s) as [[]| |]; run; try reflexivity. apply IH. }
  rewrite L. unfold Grandfathered_try_from, lift.
  destruct (try_from_loop GRANDFATHERED s) as [[g|s']| |] eqn:E; run; try reflexivity.
  assert (forall l, try_from_loop l s = Ret (Err s') -> s' = s) as F.
  { induction l as [|g l IH]; cbn [try_from_loop]; [now intros [= <-]|].
    destruct (case_insensitive_eq _ s) as [[]| |]; cbn; auto; discriminate. }
  now rewrite (F _ E).
Qed.

(** On a string or bytes. *)
Lemma Grandfathered_new_src {M} n s w :
  140 <= n -> w = VStr \/ w = VBytes ->
  call M crate n (VPath ["GrandfatheredLangTag"; "new"]) [w s] = lift (vgrandfathered_result w) (Grandfathered_new s).
Proof.
  intros Hn Hw. fuel n 40. unfold Grandfathered_new, lift.
  destruct Hw as [-> | ->]; enter; run; rewrite Grandfathered_try_from_src by lia; unfold lift;
    destruct (Grandfathered_try_from s) as [[]| |]; run; reflexivity.
Qed.

(** * 2. LangTag *)

Ltac retag :=
  repeat match goal with
  | |- context [tuple1 "NormalLangTag" (VStr ?s)] => change (tuple1 "NormalLangTag" (VStr s)) with (vtag NormalLangTagT s)
  end.
(** Rewrites [new] of a type, on the string of a tag. *)
Ltac constructs ty :=
  let H := fresh in
  pose proof (fun M => @validate_bytes_src M ty) as H; cbv [grammar_type automaton_name append automaton_of] in H;
  rewrite H by lia; clear H.

Lemma LangTag_as_normal_src {M} n s :
  140 + length s <= n -> length s + 4 <= M ->
  call M crate n (VPath ["LangTag"; "as_normal"]) [vtag LangTagT s] =
  lift (voption (vtag NormalLangTagT)) (LangTag_as_normal s).
Proof.
  intros Hn HM. fuel n 20. enter. run. constructs NormalLangTagT. unfold LangTag_as_normal, new, lift.
  destruct (validate Langtag s) as [[]| |]; run; reflexivity.
Qed.
Lemma LangTag_as_private_use_src {M} n s :
  140 + length s <= n -> length s + 4 <= M ->
  call M crate n (VPath ["LangTag"; "as_private_use"]) [vtag LangTagT s] =
  lift (voption (vtag PrivateUseT)) (LangTag_as_private_use s).
Proof.
  intros Hn HM. fuel n 20. enter. run. constructs PrivateUseT. unfold LangTag_as_private_use, new, lift.
  destruct (validate Privateuse s) as [[]| |]; run; reflexivity.
Qed.
Lemma LangTag_as_grandfathered_src {M} n s :
  180 <= n ->
  call M crate n (VPath ["LangTag"; "as_grandfathered"]) [vtag LangTagT s] =
  lift (voption vgrandfathered) (LangTag_as_grandfathered s).
Proof.
  intro Hn. fuel n 20. enter. run. rewrite (Grandfathered_new_src _ s VStr) by (auto; lia).
  unfold LangTag_as_grandfathered, lift. destruct (Grandfathered_new s) as [[]| |]; run; reflexivity.
Qed.

Lemma LangTag_language_src {M} n s :
  300 + 2 * length s <= n -> length s + 4 <= M ->
  call M crate n (VPath ["LangTag"; "language"]) [vtag LangTagT s] = lift (voption (vtag LanguageT)) (LangTag_language s).
Proof.
  intros Hn HM. fuel n 30. enter. run. constructs NormalLangTagT. unfold LangTag_language, new, lift.
  destruct (validate Langtag s) as [[]| |]; run; try reflexivity.
  - retag; rewrite NormalLangTag_language_src by lia. unfold lift. destruct (NormalLangTag_language s); run; reflexivity.
  - rewrite (Grandfathered_new_src _ s VStr) by (auto; lia). unfold lift.
    destruct (Grandfathered_new s) as [[g|]| |]; run; try reflexivity.
    rewrite Grandfathered_language_src by lia. destruct (Grandfathered_language g); run; reflexivity.
Qed.

Lemma as_normal_same s t : LangTag_as_normal s = Ret (Some t) -> t = s.
Proof.
  unfold LangTag_as_normal, new. destruct (validate Langtag s) as [[]| |]; cbn; try discriminate. now intros [= <-].
Qed.

Ltac of_normal_by L F :=
  match goal with |- _ <= ?n -> _ -> _ => intros ? ?; fuel n 40 end; enter; run; rewrite LangTag_as_normal_src by lia; unfold lift;
  match goal with |- context [LangTag_as_normal ?s] =>
    let E := fresh in destruct (LangTag_as_normal s) as [[t|]| |] eqn:E; [apply as_normal_same in E; subst t|..] end;
  run; cbn [and_then]; [|reflexivity..];
  retag; rewrite L by lia; unfold lift;
  match goal with |- context [F ?s] => destruct (F s) end; run; reflexivity.

Lemma LangTag_script_src {M} n s :
  400 + 2 * length s <= n -> length s + 4 <= M ->
  call M crate n (VPath ["LangTag"; "script"]) [vtag LangTagT s] = lift (voption (vtag ScriptT)) (LangTag_script s).
Proof. unfold LangTag_script. of_normal_by (@NormalLangTag_script_src M) NormalLangTag_script. Qed.
Lemma LangTag_region_src {M} n s :
  400 + 2 * length s <= n -> length s + 4 <= M ->
  call M crate n (VPath ["LangTag"; "region"]) [vtag LangTagT s] = lift (voption (vtag RegionT)) (LangTag_region s).
Proof. unfold LangTag_region. of_normal_by (@NormalLangTag_region_src M) NormalLangTag_region. Qed.
Lemma LangTag_variants_src {M} n s :
  400 + 2 * length s <= n -> length s + 4 <= M ->
  call M crate n (VPath ["LangTag"; "variants"]) [vtag LangTagT s] = lift (vtag VariantsT) (LangTag_variants s).
Proof. unfold LangTag_variants. of_normal_by (@NormalLangTag_variants_src M) NormalLangTag_variants. Qed.
Lemma LangTag_extensions_src {M} n s :
  500 + 2 * length s <= n -> length s + 4 <= M ->
  call M crate n (VPath ["LangTag"; "extensions"]) [vtag LangTagT s] = lift (vtag ExtensionsT) (LangTag_extensions s).
Proof. unfold LangTag_extensions. of_normal_by (@NormalLangTag_extensions_src M) NormalLangTag_extensions. Qed.
Lemma LangTag_private_use_src {M} n s :
  500 + 2 * length s <= n -> length s + 4 <= M ->
  call M crate n (VPath ["LangTag"; "private_use"]) [vtag LangTagT s] =
  lift (voption (vtag PrivateUseT)) (LangTag_private_use s).
Proof. unfold LangTag_private_use. of_normal_by (@NormalLangTag_private_use_src M) NormalLangTag_private_use. Qed.
Lemma LangTag_private_use_subtags_src {M} n s :
  550 + 2 * length s <= n -> length s + 4 <= M ->
  call M crate n (VPath ["LangTag"; "private_use_subtags"]) [vtag LangTagT s] =
  lift (viter_of "PrivateUseIter") (LangTag_private_use_subtags s).
Proof.
  intros Hn HM. fuel n 40. enter. run. rewrite LangTag_private_use_src by lia. unfold LangTag_private_use_subtags, lift.
  destruct (LangTag_private_use s) as [[p|]| |]; run; try reflexivity.
Qed.

Lemma LangTag_is_normal_src {M} n s :
  180 + length s <= n -> length s + 4 <= M ->
  call M crate n (VPath ["LangTag"; "is_normal"]) [vtag LangTagT s] = lift VBool (LangTag_is_normal s).
Proof.
  intros Hn HM. fuel n 20. enter. run. rewrite LangTag_as_normal_src by lia. unfold LangTag_is_normal, lift.
  destruct (LangTag_as_normal s) as [[]| |]; run; reflexivity.
Qed.
Lemma LangTag_is_private_use_src {M} n s :
  180 + length s <= n -> length s + 4 <= M ->
  call M crate n (VPath ["LangTag"; "is_private_use"]) [vtag LangTagT s] = lift VBool (LangTag_is_private_use s).
Proof.
  intros Hn HM. fuel n 20. enter. run. rewrite LangTag_as_private_use_src by lia. unfold LangTag_is_private_use, lift.
  destruct (LangTag_as_private_use s) as [[]| |]; run; reflexivity.
Qed.
Lemma LangTag_is_grandfathered_src {M} n s :
  220 <= n ->
  call M crate n (VPath ["LangTag"; "is_grandfathered"]) [vtag LangTagT s] = lift VBool (LangTag_is_grandfathered s).
Proof.
  intro Hn. fuel n 20. enter. run. rewrite LangTag_as_grandfathered_src by lia. unfold LangTag_is_grandfathered, lift.
  destruct (LangTag_as_grandfathered s) as [[]| |]; run; reflexivity.
Qed.

(** * 3. TypedLangTag and Kind *)

Definition vtyped (t : typed) : value :=
  match t with
  | TNormal s => VEnum "TypedLangTag" "Normal" [vtag NormalLangTagT s]
  | TPrivateUse s => VEnum "TypedLangTag" "PrivateUse" [vtag PrivateUseT s]
  | TGrandfathered g => VEnum "TypedLangTag" "Grandfathered" [vgrandfathered g]
  end.
Definition vkind (k : kind) : value :=
  VEnum "Kind" (match k with KNormal => "Normal" | KPrivateUse => "PrivateUse" | KGrandfathered => "Grandfathered" end) [].
(** The variants, in order: a derived implementation uses these positions. *)
Lemma kind_enum :
  find_enum (enums crate) "Kind" = Some [("Normal", 0); ("PrivateUse", 0); ("Grandfathered", 0)] /\
  forall k, nth_error [KNormal; KPrivateUse; KGrandfathered] (N.to_nat (Kind_discriminant k)) = Some k.
Proof. split; [vm_compute; reflexivity|]. destruct k; reflexivity. Qed.

Lemma LangTag_as_typed_src {M} n s :
  200 + length s <= n -> length s + 4 <= M ->
  call M crate n (VPath ["LangTag"; "as_typed"]) [vtag LangTagT s] = lift vtyped (LangTag_as_typed s).
Proof.
  intros Hn HM. fuel n 40. enter. run. constructs NormalLangTagT. unfold LangTag_as_typed, new, lift.
  destruct (validate Langtag s) as [[]| |]; run; try reflexivity.
  constructs PrivateUseT. unfold lift.
  destruct (validate Privateuse s) as [[]| |]; run; try reflexivity.
  rewrite (Grandfathered_new_src _ s VStr) by (auto; lia). unfold lift.
  destruct (Grandfathered_new s) as [[g|]| |]; run; reflexivity.
Qed.
Lemma Typed_kind_src {M} n t :
  30 <= n -> call M crate n (VPath ["TypedLangTag"; "kind"]) [vtyped t] = Ret (vkind (Typed_kind t), []).
Proof. intro Hn. fuel n 30. destruct t; cbn [vtyped]; enter; run; reflexivity. Qed.
Lemma LangTag_kind_src {M} n s :
  250 + length s <= n -> length s + 4 <= M ->
  call M crate n (VPath ["LangTag"; "kind"]) [vtag LangTagT s] = lift vkind (LangTag_kind s).
Proof.
  intros Hn HM. fuel n 40. enter. run. rewrite LangTag_as_typed_src by lia. unfold LangTag_kind, lift.
  destruct (LangTag_as_typed s) as [t| |]; [|reflexivity|reflexivity].
  destruct t; cbn [vtyped]; run; enter; run; reflexivity.
Qed.
Lemma Typed_language_src {M} n t :
  300 + 2 * length (match t with TNormal s => s | _ => [] end) <= n ->
  match t with TNormal s => length s + 4 <= M | _ => True end ->
  call M crate n (VPath ["TypedLangTag"; "language"]) [vtyped t] = lift (voption (vtag LanguageT)) (Typed_language t).
Proof.
  intros Hn HM. fuel n 40. destruct t as [s|s|g]; cbn [vtyped Typed_language]; enter; run.
  - retag; rewrite NormalLangTag_language_src by lia. unfold lift. destruct (NormalLangTag_language s); run; reflexivity.
  - reflexivity.
  - rewrite Grandfathered_language_src by lia. unfold lift. destruct (Grandfathered_language g); run; reflexivity.
Qed.
Lemma Typed_is_src {M} n t :
  30 <= n ->
  call M crate n (VPath ["TypedLangTag"; "is_normal"]) [vtyped t] = Ret (VBool (Typed_is_normal t), []) /\
  call M crate n (VPath ["TypedLangTag"; "is_private_use"]) [vtyped t] = Ret (VBool (Typed_is_private_use t), []) /\
  call M crate n (VPath ["TypedLangTag"; "is_grandfathered"]) [vtyped t] = Ret (VBool (Typed_is_grandfathered t), []).
Proof. intro Hn. fuel n 30. destruct t; cbn [vtyped]; (repeat split); enter; run; reflexivity. Qed.
Lemma Typed_as_src {M} n t :
  30 <= n ->
  call M crate n (VPath ["TypedLangTag"; "as_normal"]) [vtyped t] =
    Ret (voption (vtag NormalLangTagT) (Typed_as_normal t), []) /\
  call M crate n (VPath ["TypedLangTag"; "as_private_use"]) [vtyped t] =
    Ret (voption (vtag PrivateUseT) (Typed_as_private_use t), []) /\
  call M crate n (VPath ["TypedLangTag"; "as_grandfathered"]) [vtyped t] =
    Ret (voption vgrandfathered (Typed_as_grandfathered t), []).
Proof. intro Hn. fuel n 30. destruct t; cbn [vtyped]; (repeat split); enter; run; reflexivity. Qed.
Lemma Kind_is_src {M} n k :
  30 <= n ->
  call M crate n (VPath ["Kind"; "is_normal"]) [vkind k] = Ret (VBool (Kind_is_normal k), []) /\
  call M crate n (VPath ["Kind"; "is_private_use"]) [vkind k] = Ret (VBool (Kind_is_private_use k), []) /\
  call M crate n (VPath ["Kind"; "is_grandfathered"]) [vkind k] = Ret (VBool (Kind_is_grandfathered k), []).
Proof. intro Hn. fuel n 30. destruct k; unfold vkind; (repeat split); enter; run; reflexivity. Qed.

(** * 4. Comparisons and hashes of the fifteen newtypes *)

Lemma eq_src {M} ty n a b :
  80 <= n -> call M crate n (VPath [type_of ty; "eq"]) [vtag ty a; vtag ty b] = lift VBool (eq_of ty a b).
Proof.
  intro Hn. fuel n 20. destruct ty; cbn [type_of eq_of]; enter; run; rewrite case_insensitive_eq_src by lia; unfold lift;
    destruct (case_insensitive_eq a b); run; reflexivity.
Qed.
Lemma cmp_src {M} ty n a b :
  100 + length a <= n -> length a + 4 <= M ->
  call M crate n (VPath [type_of ty; "cmp"]) [vtag ty a; vtag ty b] = lift ordering (cmp_of ty a b).
Proof.
  intros Hn HM. fuel n 20. destruct ty; cbn [type_of cmp_of]; enter; run; rewrite case_insensitive_cmp_src by lia; unfold lift;
    destruct (case_insensitive_cmp a b); run; reflexivity.
Qed.
Lemma partial_cmp_src {M} ty n a b :
  130 + length a <= n -> length a + 4 <= M ->
  call M crate n (VPath [type_of ty; "partial_cmp"]) [vtag ty a; vtag ty b] = lift (voption ordering) (partial_cmp_of ty a b).
Proof.
  intros Hn HM. fuel n 20. pose proof (@cmp_src M ty) as C.
  destruct ty; cbn [type_of partial_cmp_of cmp_of] in *; enter; run; rewrite C by lia; unfold lift;
    destruct (case_insensitive_cmp a b); run; reflexivity.
Qed.
(** The bytes given to the hasher, one [write_u8] each. *)
Lemma hash_src {M} ty n a l :
  80 <= n ->
  call M crate n (VPath [type_of ty; "hash"]) [vtag ty a; VSink l] =
  Ret (VUnit, [VSink (l ++ map into_smallcase a)]).
Proof.
  intro Hn. fuel n 20. destruct ty; cbn [type_of]; enter; run; rewrite case_insensitive_hash_src by lia; run; reflexivity.
Qed.
Lemma hash_of_writes ty H a st : hash_of ty H a st = fold_left (write_u8 H) (map into_smallcase a) st.
Proof.
  assert (case_insensitive_hash H a st = fold_left (write_u8 H) (map into_smallcase a) st) as E.
  { revert st. induction a as [|b a IH]; intro st; [reflexivity|]. cbn. apply IH. }
  destruct ty; exact E.
Qed.
