(** How many steps the functions of grandfathered.rs, lib.rs and the comparisons take. *)
From Verif Require Import Base Validate Utils Normal Grandfathered LangTag Derived NoOverflow Newtypes.
From Verif Require Import RustSyntax RustEval RustCount RustProgram RustRefine RustGrammar RustValidate RustNormal RustAccess
  RustTags RustLib RustSteps RustStepsNormal.
Import Base.
Open Scope string_scope.
Open Scope nat_scope.
Open Scope list_scope.

(** * 1. GrandfatheredLangTag *)

Lemma grandfathered_args_steps {M} m x : forall l k s,
  keval_args (keval M crate (1 + m)) [("Self", VTy x)] (map (fun g => EPath [grandfathered_name g]) l) k s =
  k [("Self", VTy x)] (map vgrandfathered l) (length l + s).
Proof.
  induction l as [|g l IH]; intros k s; [reflexivity|]. cbn [map keval_args]. rewrite (keval_eq 0 m). cbn [keval_step].
  assert (keval_path crate (keval M crate (0 + m)) [("Self", VTy x)] [grandfathered_name g] (S s) =
    kdone [("Self", VTy x)] (vgrandfathered g) (S s)) as ->.
  { unfold keval_path. replace (lookup (grandfathered_name g) [("Self", VTy x)]) with (@None value) by now destruct g.
    replace (self_path [("Self", VTy x)] [grandfathered_name g]) with [grandfathered_name g] by now destruct g.
    now rewrite grandfathered_resolves. }
  unfold kdone, kandthen. cbn [kbind snd fst]. rewrite IH. f_equal. cbn [length]. lia.
Qed.
Lemma GRANDFATHERED_steps {M} n e s :
  20 <= n -> lookup "GRANDFATHERED" e = None ->
  keval M crate n e (EPath ["GRANDFATHERED"]) s = (28 + s, Ret (e, Done (VList (map vgrandfathered GRANDFATHERED)))).
Proof.
  intros Hn He. fuel n 20. rewrite keval_eq. cbn [keval_step]. unfold keval_path. rewrite He.
  assert (self_path e ["GRANDFATHERED"] = ["GRANDFATHERED"]) as -> by reflexivity.
  replace (resolve crate ["GRANDFATHERED"]) with (TgConst "" grandfathered_array) by (vm_compute; reflexivity).
  rewrite keval_eq. unfold grandfathered_array. cbn [keval_step].
  match goal with |- context [keval_args _ _ ?l _] =>
    change l with (map (fun g => EPath [grandfathered_name g]) GRANDFATHERED) end.
  rewrite (grandfathered_args_steps (17 + m)). unfold kdone. cbn [kbind fst snd]. change (length GRANDFATHERED) with 26. f_equal.
Qed.

Lemma Grandfathered_as_bytes_steps {M} n g :
  20 <= n ->
  priced M n (VPath ["GrandfatheredLangTag"; "as_bytes"]) [vgrandfathered g] (Ret (VBytes (Grandfathered_as_bytes g), [])) 20.
Proof.
  intro Hn. apply priced_intro; [now apply Grandfathered_as_bytes_src|]. intro s0. fuel n 20.
  unfold vgrandfathered. destruct g; cbn [grandfathered_name]; kenter; over.
Qed.
Lemma Grandfathered_language_steps {M} n g :
  20 <= n ->
  priced M n (VPath ["GrandfatheredLangTag"; "language"]) [vgrandfathered g]
    (Ret (voption (vtag LanguageT) (Grandfathered_language g), [])) 20.
Proof.
  intro Hn. apply priced_intro; [now apply Grandfathered_language_src|]. intro s0. fuel n 20.
  unfold vgrandfathered. destruct g; cbn [grandfathered_name]; kenter; over.
Qed.
Lemma Grandfathered_as_str_steps {M} n g :
  40 <= n ->
  priced M n (VPath ["GrandfatheredLangTag"; "as_str"]) [vgrandfathered g] (Ret (VStr (Grandfathered_as_str g), [])) 40.
Proof.
  intro Hn. apply priced_intro; [now apply Grandfathered_as_str_src|]. intro s0. fuel n 20. kenter. krun.
  uses @Grandfathered_as_bytes_steps. over.
Qed.
Lemma Grandfathered_short g : length (Grandfathered_as_str g) <= 11.
Proof. destruct g; vm_compute; lia. Qed.
Lemma Grandfathered_display_steps {M} n g l :
  60 <= n ->
  priced M n (VPath ["GrandfatheredLangTag"; "as"; "Display"; ""; "fmt"]) [vgrandfathered g; VSink l]
    (Ret (okv VUnit, [VSink (l ++ Grandfathered_as_str g)])) 80.
Proof.
  intro Hn. apply priced_intro; [now apply Grandfathered_display_src|]. intro s0. fuel n 20. kenter. krun.
  uses @Grandfathered_as_str_steps. pose proof (Grandfathered_short g). over.
Qed.

Lemma Grandfathered_try_from_steps {M} n s :
  100 <= n ->
  priced M n (VPath ["GrandfatheredLangTag"; "try_from"]) [VBytes s]
  (lift (vgrandfathered_result (fun s => tuple1 "InvalidGrandfatheredTag" (VBytes s))) (Grandfathered_try_from s)) (30 * 1300).
Proof.
  intro Hn. apply priced_intro; [now apply Grandfathered_try_from_src|]. intro s0. fuel n 50. kenter. do 3 kstep.
  rewrite GRANDFATHERED_steps by (reflexivity || lia). ktidy_all.
  match goal with
  | |- context [keval_for ?ev ?e ?p ?x (map vgrandfathered GRANDFATHERED) ?t0] =>
    rest (keval_for ev e p x (map vgrandfathered GRANDFATHERED) t0) ltac:(fun Q =>
    assert (forall l t, Q (keval_for ev e p x (map vgrandfathered l) t) <= 1300 * length l + 50 + t) as L)
  end.
  { cbv beta. induction l as [|g l IH]; intro t; cbn [map keval_for length]; krun; [over|].
    uses @Grandfathered_as_bytes_steps. krun.
    uses @case_insensitive_eq_steps. pose proof (Grandfathered_short g) as G. unfold Grandfathered_as_str in G.
    destruct (case_insensitive_eq (Grandfathered_as_bytes g) s) as [[]| |]; krun; [over|again IH|over|over]. }
  eapply Nat.le_trans; [apply L|]. change (length GRANDFATHERED) with 26. lia.
Qed.
Ltac ktidy ::=
  cbn [keval_step kcall_step krun_fn keval_path keval_args keval_fields keval_arms keval_stmts kdone kstuck kpure kandthen
       kscoped klooping kbind kmethod1 charge done pure bind lookup update restore minus_len drop_len
       String.eqb Ascii.eqb Bool.eqb match_pat bind_pats app fst snd
       write_back keep fn_muts param_names bind_params fn_self fn_params fn_ret fn_body fn_name map last self_path
       assign binary cast make_range index_value field items method0 method_muts orb tl tuple1 some none okv errv
       rev negb andb default_of vtag type_of vsingleton vsingleton_result vrange range vrange_result voption lift
       vgrandfathered_result vtyped vkind].
Lemma Grandfathered_new_steps {M} n s w :
  140 <= n -> w = VStr \/ w = VBytes ->
  priced M n (VPath ["GrandfatheredLangTag"; "new"]) [w s] (lift (vgrandfathered_result w) (Grandfathered_new s)) (31 * 1300).
Proof.
  intros Hn Hw. apply priced_intro; [now apply Grandfathered_new_src|]. intro s0. fuel n 40.
  destruct Hw as [-> | ->]; kenter; krun; uses @Grandfathered_try_from_steps;
    destruct (Grandfathered_try_from s) as [[]| |]; over.
Qed.

(** * 2. LangTag *)

Ltac kretag :=
  repeat match goal with
  | |- context [tuple1 "NormalLangTag" (VStr ?s)] => change (tuple1 "NormalLangTag" (VStr s)) with (vtag NormalLangTagT s)
  end.

Lemma LangTag_as_normal_steps {M} n s :
  140 + length s <= n -> length s + 4 <= M ->
  priced M n (VPath ["LangTag"; "as_normal"]) [vtag LangTagT s] (lift (voption (vtag NormalLangTagT)) (LangTag_as_normal s))
    (80 * length s + 200).
Proof.
  intros Hn HM. apply priced_intro; [now apply LangTag_as_normal_src|]. intro s0. fuel n 20. kenter. krun.
  kvalidated NormalLangTagT. destruct (validate Langtag s) as [[]| |]; over.
Qed.
Lemma LangTag_as_private_use_steps {M} n s :
  140 + length s <= n -> length s + 4 <= M ->
  priced M n (VPath ["LangTag"; "as_private_use"]) [vtag LangTagT s]
    (lift (voption (vtag PrivateUseT)) (LangTag_as_private_use s)) (80 * length s + 200).
Proof.
  intros Hn HM. apply priced_intro; [now apply LangTag_as_private_use_src|]. intro s0. fuel n 20. kenter. krun.
  kvalidated PrivateUseT. destruct (validate Privateuse s) as [[]| |]; over.
Qed.
Lemma LangTag_as_grandfathered_steps {M} n s :
  180 <= n ->
  priced M n (VPath ["LangTag"; "as_grandfathered"]) [vtag LangTagT s]
    (lift (voption vgrandfathered) (LangTag_as_grandfathered s)) (32 * 1300).
Proof.
  intro Hn. apply priced_intro; [now apply LangTag_as_grandfathered_src|]. intro s0. fuel n 20. kenter. krun.
  uses (fun n => @Grandfathered_new_steps M n s VStr).
  destruct (Grandfathered_new s) as [[]| |]; over.
Qed.
Lemma LangTag_language_steps {M} n s :
  300 + 2 * length s <= n -> length s + 4 <= M ->
  priced M n (VPath ["LangTag"; "language"]) [vtag LangTagT s] (lift (voption (vtag LanguageT)) (LangTag_language s))
    (600 * length s + 33 * 1300).
Proof.
  intros Hn HM. apply priced_intro; [now apply LangTag_language_src|]. intro s0. fuel n 30. kenter. krun.
  kvalidated NormalLangTagT. destruct (validate Langtag s) as [[]| |]; krun; try over.
  - uses @NormalLangTag_language_steps. destruct (NormalLangTag_language s); over.
  - uses (fun n => @Grandfathered_new_steps M n s VStr).
    destruct (Grandfathered_new s) as [[g|]| |]; krun; try over.
    uses @Grandfathered_language_steps. destruct (Grandfathered_language g); over.
Qed.

Ltac kof_normal L C F :=
  let Hn := fresh in let HM := fresh in let s0 := fresh "s0" in
  intros Hn HM; apply priced_intro; [now apply L|]; intro s0;
  match type of Hn with _ <= ?n => fuel n 40 end; kenter; krun; uses @LangTag_as_normal_steps;
  match goal with |- context [LangTag_as_normal ?s] =>
    let E := fresh in destruct (LangTag_as_normal s) as [[t|]| |] eqn:E; [apply as_normal_same in E; subst t|..] end;
  krun; [|over..];
  uses C; match goal with |- context [F ?s] => destruct (F s) end; over.

Lemma LangTag_script_steps {M} n s :
  400 + 2 * length s <= n -> length s + 4 <= M ->
  priced M n (VPath ["LangTag"; "script"]) [vtag LangTagT s] (lift (voption (vtag ScriptT)) (LangTag_script s))
    (1100 * length s + 1700).
Proof. kof_normal (@LangTag_script_src M) (@NormalLangTag_script_steps M) NormalLangTag_script. Qed.
Lemma LangTag_region_steps {M} n s :
  400 + 2 * length s <= n -> length s + 4 <= M ->
  priced M n (VPath ["LangTag"; "region"]) [vtag LangTagT s] (lift (voption (vtag RegionT)) (LangTag_region s))
    (1600 * length s + 2400).
Proof. kof_normal (@LangTag_region_src M) (@NormalLangTag_region_steps M) NormalLangTag_region. Qed.
Lemma LangTag_variants_steps {M} n s :
  400 + 2 * length s <= n -> length s + 4 <= M ->
  priced M n (VPath ["LangTag"; "variants"]) [vtag LangTagT s] (lift (vtag VariantsT) (LangTag_variants s))
    (2100 * length s + 3100).
Proof. kof_normal (@LangTag_variants_src M) (@NormalLangTag_variants_steps M) NormalLangTag_variants. Qed.
Lemma LangTag_extensions_steps {M} n s :
  500 + 2 * length s <= n -> length s + 4 <= M ->
  priced M n (VPath ["LangTag"; "extensions"]) [vtag LangTagT s] (lift (vtag ExtensionsT) (LangTag_extensions s))
    (2600 * length s + 3800).
Proof. kof_normal (@LangTag_extensions_src M) (@NormalLangTag_extensions_steps M) NormalLangTag_extensions. Qed.
Lemma LangTag_private_use_steps {M} n s :
  500 + 2 * length s <= n -> length s + 4 <= M ->
  priced M n (VPath ["LangTag"; "private_use"]) [vtag LangTagT s] (lift (voption (vtag PrivateUseT)) (LangTag_private_use s))
    (2100 * length s + 3200).
Proof. kof_normal (@LangTag_private_use_src M) (@NormalLangTag_private_use_steps M) NormalLangTag_private_use. Qed.
Lemma LangTag_private_use_subtags_steps {M} n s :
  550 + 2 * length s <= n -> length s + 4 <= M ->
  priced M n (VPath ["LangTag"; "private_use_subtags"]) [vtag LangTagT s]
    (lift (viter_of "PrivateUseIter") (LangTag_private_use_subtags s)) (2100 * length s + 3300).
Proof.
  intros Hn HM. apply priced_intro; [now apply LangTag_private_use_subtags_src|]. intro s0. fuel n 40. kenter. krun.
  uses @LangTag_private_use_steps.
  destruct (LangTag_private_use s) as [[p|]| |]; krun; repeat (kenter; krun); over.
Qed.
Lemma LangTag_is_normal_steps {M} n s :
  180 + length s <= n -> length s + 4 <= M ->
  priced M n (VPath ["LangTag"; "is_normal"]) [vtag LangTagT s] (lift VBool (LangTag_is_normal s)) (80 * length s + 300).
Proof.
  intros Hn HM. apply priced_intro; [now apply LangTag_is_normal_src|]. intro s0. fuel n 20. kenter. krun.
  uses @LangTag_as_normal_steps. destruct (LangTag_as_normal s) as [[]| |]; over.
Qed.
Lemma LangTag_is_private_use_steps {M} n s :
  180 + length s <= n -> length s + 4 <= M ->
  priced M n (VPath ["LangTag"; "is_private_use"]) [vtag LangTagT s] (lift VBool (LangTag_is_private_use s))
    (80 * length s + 300).
Proof.
  intros Hn HM. apply priced_intro; [now apply LangTag_is_private_use_src|]. intro s0. fuel n 20. kenter. krun.
  uses @LangTag_as_private_use_steps. destruct (LangTag_as_private_use s) as [[]| |]; over.
Qed.
Lemma LangTag_is_grandfathered_steps {M} n s :
  220 <= n ->
  priced M n (VPath ["LangTag"; "is_grandfathered"]) [vtag LangTagT s] (lift VBool (LangTag_is_grandfathered s)) (33 * 1300).
Proof.
  intro Hn. apply priced_intro; [now apply LangTag_is_grandfathered_src|]. intro s0. fuel n 20. kenter. krun.
  uses @LangTag_as_grandfathered_steps. destruct (LangTag_as_grandfathered s) as [[]| |]; over.
Qed.

(** * 3. TypedLangTag and Kind *)

Lemma LangTag_as_typed_steps {M} n s :
  200 + length s <= n -> length s + 4 <= M ->
  priced M n (VPath ["LangTag"; "as_typed"]) [vtag LangTagT s] (lift vtyped (LangTag_as_typed s))
    (200 * length s + 33 * 1300).
Proof.
  intros Hn HM. apply priced_intro; [now apply LangTag_as_typed_src|]. intro s0. fuel n 40. kenter. krun.
  kvalidated NormalLangTagT. destruct (validate Langtag s) as [[]| |]; krun; try over.
  kvalidated PrivateUseT. destruct (validate Privateuse s) as [[]| |]; krun; try over.
  uses (fun n => @Grandfathered_new_steps M n s VStr). destruct (Grandfathered_new s) as [[g|]| |]; over.
Qed.
Lemma Typed_kind_steps {M} n t :
  30 <= n -> priced M n (VPath ["TypedLangTag"; "kind"]) [vtyped t] (Ret (vkind (Typed_kind t), [])) 30.
Proof.
  intro Hn. apply priced_intro; [now apply Typed_kind_src|]. intro s0. fuel n 30. destruct t; cbn [vtyped]; kenter; over.
Qed.
Lemma LangTag_kind_steps {M} n s :
  250 + length s <= n -> length s + 4 <= M ->
  priced M n (VPath ["LangTag"; "kind"]) [vtag LangTagT s] (lift vkind (LangTag_kind s)) (200 * length s + 34 * 1300).
Proof.
  intros Hn HM. apply priced_intro; [now apply LangTag_kind_src|]. intro s0. fuel n 40. kenter. krun.
  uses @LangTag_as_typed_steps. destruct (LangTag_as_typed s) as [t| |]; [|over|over].
  destruct t; cbn [vtyped]; krun; kenter; over.
Qed.
Lemma Typed_language_steps {M} n t :
  300 + 2 * length (match t with TNormal s => s | _ => [] end) <= n ->
  match t with TNormal s => length s + 4 <= M | _ => True end ->
  priced M n (VPath ["TypedLangTag"; "language"]) [vtyped t] (lift (voption (vtag LanguageT)) (Typed_language t))
    (600 * length (match t with TNormal s => s | _ => [] end) + 900).
Proof.
  intros Hn HM. apply priced_intro; [now apply Typed_language_src|]. intro s0. fuel n 40.
  destruct t as [s|s|g]; cbn [vtyped]; kenter; krun.
  - uses @NormalLangTag_language_steps. destruct (NormalLangTag_language s); over.
  - over.
  - uses @Grandfathered_language_steps. destruct (Grandfathered_language g); over.
Qed.
Lemma Typed_is_steps {M} n t :
  30 <= n ->
  priced M n (VPath ["TypedLangTag"; "is_normal"]) [vtyped t] (Ret (VBool (Typed_is_normal t), [])) 30 /\
  priced M n (VPath ["TypedLangTag"; "is_private_use"]) [vtyped t] (Ret (VBool (Typed_is_private_use t), [])) 30 /\
  priced M n (VPath ["TypedLangTag"; "is_grandfathered"]) [vtyped t] (Ret (VBool (Typed_is_grandfathered t), [])) 30.
Proof.
  intro Hn. pose proof (@Typed_is_src M n t Hn) as (R1 & R2 & R3). fuel n 30.
  repeat split; try assumption; unfold steps; destruct t; cbn [vtyped]; kenter; over.
Qed.
Lemma Typed_as_steps {M} n t :
  30 <= n ->
  priced M n (VPath ["TypedLangTag"; "as_normal"]) [vtyped t] (Ret (voption (vtag NormalLangTagT) (Typed_as_normal t), [])) 30 /\
  priced M n (VPath ["TypedLangTag"; "as_private_use"]) [vtyped t]
    (Ret (voption (vtag PrivateUseT) (Typed_as_private_use t), [])) 30 /\
  priced M n (VPath ["TypedLangTag"; "as_grandfathered"]) [vtyped t]
    (Ret (voption vgrandfathered (Typed_as_grandfathered t), [])) 30.
Proof.
  intro Hn. pose proof (@Typed_as_src M n t Hn) as (R1 & R2 & R3). fuel n 30.
  repeat split; try assumption; unfold steps; destruct t; cbn [vtyped]; kenter; over.
Qed.
Lemma Kind_is_steps {M} n k :
  30 <= n ->
  priced M n (VPath ["Kind"; "is_normal"]) [vkind k] (Ret (VBool (Kind_is_normal k), [])) 30 /\
  priced M n (VPath ["Kind"; "is_private_use"]) [vkind k] (Ret (VBool (Kind_is_private_use k), [])) 30 /\
  priced M n (VPath ["Kind"; "is_grandfathered"]) [vkind k] (Ret (VBool (Kind_is_grandfathered k), [])) 30.
Proof.
  intro Hn. pose proof (@Kind_is_src M n k Hn) as (R1 & R2 & R3). fuel n 30.
  repeat split; try assumption; unfold steps; destruct k; unfold vkind; kenter; over.
Qed.

(** * 4. Comparisons and hashes *)

Lemma eq_steps {M} ty n a b :
  80 <= n ->
  priced M n (VPath [type_of ty; "eq"]) [vtag ty a; vtag ty b] (lift VBool (eq_of ty a b)) (100 * length a + 200).
Proof.
  intro Hn. apply priced_intro; [now apply eq_src|]. intro s0. fuel n 20.
  destruct ty; cbn [type_of]; kenter; krun; uses @case_insensitive_eq_steps; destruct (case_insensitive_eq a b); over.
Qed.
Lemma cmp_steps {M} ty n a b :
  100 + length a <= n -> length a + 4 <= M ->
  priced M n (VPath [type_of ty; "cmp"]) [vtag ty a; vtag ty b] (lift ordering (cmp_of ty a b)) (200 * length a + 400).
Proof.
  intros Hn HM. apply priced_intro; [now apply cmp_src|]. intro s0. fuel n 20.
  destruct ty; cbn [type_of]; kenter; krun; uses @case_insensitive_cmp_steps; destruct (case_insensitive_cmp a b); over.
Qed.
Lemma partial_cmp_steps {M} ty n a b :
  130 + length a <= n -> length a + 4 <= M ->
  priced M n (VPath [type_of ty; "partial_cmp"]) [vtag ty a; vtag ty b] (lift (voption ordering) (partial_cmp_of ty a b))
    (200 * length a + 500).
Proof.
  intros Hn HM. apply priced_intro; [now apply partial_cmp_src|]. intro s0. fuel n 20. pose proof (@cmp_steps M ty) as C.
  destruct ty; cbn [type_of cmp_of] in *; kenter; krun; uses C; destruct (case_insensitive_cmp a b); over.
Qed.
Lemma hash_steps {M} ty n a l :
  80 <= n ->
  priced M n (VPath [type_of ty; "hash"]) [vtag ty a; VSink l] (Ret (VUnit, [VSink (l ++ map into_smallcase a)]))
    (100 * length a + 200).
Proof.
  intro Hn. apply priced_intro; [now apply hash_src|]. intro s0. fuel n 20.
  destruct ty; cbn [type_of]; kenter; krun; uses @case_insensitive_hash_steps; over.
Qed.
