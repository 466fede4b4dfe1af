(** The accessors and iterators of normal/, as the source text gives them. *)
From Verif Require Import Base Validate Utils Normal NoOverflow Newtypes RustSyntax RustEval RustProgram RustRefine RustGrammar
  RustValidate RustNormal.
Open Scope string_scope.
Open Scope nat_scope.
Open Scope list_scope.

(** * 1. NormalLangTag, continued *)

Lemma variants_range_src {M} n s :
  320 + 2 * length s <= n -> length s + 4 <= M ->
  call M crate n (VPath ["NormalLangTag"; "variants_range"]) [vtag NormalLangTagT s] = lift vrange (variants_range s).
Proof.
  intros Hn HM. fuel n 30. unfold variants_range. enter. run. rewrite region_range_src by lia. unfold lift at 1.
  destruct (region_range s) as [r| |] eqn:?; [|reflexivity|reflexivity]. cbn [bind].
  assert (forall e (G : outcome (value * list value)), end_of r = e ->
    lift vrange (let! x := find_list_end s (e + 1) (fun _ segment => new_is_ok Variant segment) in
      Ret (if x =? e + 1 then (e, e) else (e + 1, x))) = G ->
    lift vrange (let! x := find_list_end s (end_of r + 1) (fun _ segment => new_is_ok Variant segment) in
      Ret (if x =? end_of r + 1 then (end_of r, end_of r) else (end_of r + 1, x))) = G) as R
    by (now intros e G <-).
  symmetry. destruct r as [[a e]|e]; (eapply (R e); [reflexivity|]); symmetry; clear R; run;
  (erewrite (find_list_end_src _ s (e + 1) _ (fun _ segment => new_is_ok Variant segment) (120 + length s));
  [ unfold lift; destruct (find_list_end s (e + 1) _) as [x| |] eqn:?; run; [|reflexivity|reflexivity];
    destruct (x =? e + 1); run; reflexivity
  | intros k o sub Hk Hs; fuel k 20; enter; run; is_ok_closure VariantT
  | reflexivity
  | lia
  | lia ]).
Qed.

Lemma NormalLangTag_variants_src {M} n s :
  360 + 2 * length s <= n -> length s + 4 <= M ->
  call M crate n (VPath ["NormalLangTag"; "variants"]) [vtag NormalLangTagT s] =
  lift (vtag VariantsT) (NormalLangTag_variants s).
Proof.
  intros Hn HM. fuel n 20. unfold NormalLangTag_variants. enter. run. rewrite variants_range_src by lia. unfold lift.
  destruct (variants_range s) as [[a b]| |] eqn:?; run; try reflexivity.
  destruct (slice s a b); [|reflexivity|reflexivity]. run. reflexivity.
Qed.

Lemma extensions_range_src {M} n s :
  400 + 2 * length s <= n -> length s + 4 <= M ->
  call M crate n (VPath ["NormalLangTag"; "extensions_range"]) [vtag NormalLangTagT s] =
  lift vrange (extensions_range s).
Proof.
  intros Hn HM. fuel n 30. unfold extensions_range. enter. run. rewrite variants_range_src by lia. unfold lift at 1.
  destruct (variants_range s) as [[a e]| |] eqn:?; [|reflexivity|reflexivity]. run.
  erewrite (find_list_end_src _ s (e + 1) _ (fun _ segment =>
    let! a := Singleton_from_string segment in if is_ok a then Ret true else new_is_ok ExtensionSubtag segment)
    (140 + length s)).
  - unfold lift. destruct (find_list_end s (e + 1) _) as [x| |] eqn:?; run; [|reflexivity|reflexivity].
    destruct (x =? e + 1); run; reflexivity.
  - intros k o sub Hk Hs. fuel k 30. enter. run. rewrite Singleton_from_string_src by lia. unfold lift.
    destruct (Singleton_from_string sub) as [[]| |]; run; cbn [is_ok]; try reflexivity. is_ok_closure ExtensionSubtagT.
  - reflexivity.
  - lia.
  - lia.
Qed.

Lemma NormalLangTag_extensions_src {M} n s :
  440 + 2 * length s <= n -> length s + 4 <= M ->
  call M crate n (VPath ["NormalLangTag"; "extensions"]) [vtag NormalLangTagT s] =
  lift (vtag ExtensionsT) (NormalLangTag_extensions s).
Proof.
  intros Hn HM. fuel n 20. unfold NormalLangTag_extensions. enter. run. rewrite extensions_range_src by lia. unfold lift.
  destruct (extensions_range s) as [[a b]| |]; run; try reflexivity.
  destruct (slice s a b); [|reflexivity|reflexivity]. run. reflexivity.
Qed.

Lemma private_use_offset_src {M} n s :
  360 + 2 * length s <= n -> length s + 4 <= M ->
  call M crate n (VPath ["NormalLangTag"; "private_use_offset"]) [vtag NormalLangTagT s] =
  lift (voption VNat) (private_use_offset s).
Proof.
  intros Hn HM. fuel n 20. unfold private_use_offset. enter. run. rewrite variants_range_src by lia. unfold lift.
  destruct (variants_range s) as [[a b]| |] eqn:?; run; try reflexivity.
  destruct (b <? length s); run; reflexivity.
Qed.

Lemma NormalLangTag_private_use_src {M} n s :
  400 + 2 * length s <= n -> length s + 4 <= M ->
  call M crate n (VPath ["NormalLangTag"; "private_use"]) [vtag NormalLangTagT s] =
  lift (voption (vtag PrivateUseT)) (NormalLangTag_private_use s).
Proof.
  intros Hn HM. fuel n 20. unfold NormalLangTag_private_use. enter. run. rewrite private_use_offset_src by lia. unfold lift.
  destruct (private_use_offset s) as [[i|]| |]; run; try reflexivity.
  destruct (slice_from s i); [|reflexivity|reflexivity]. run. reflexivity.
Qed.

(** * 2. Iterators *)

(** The value of an iterator of the type [t]. *)
Definition viter_of (t : string) (it : iter) : value :=
  VStruct t [("data", VStr (it_data it)); ("offset", VNat (it_offset it))].
Definition vviter (it : viter) : value :=
  VStruct "VariantsIter" [("data", VStr (v_data it)); ("offset", VNat (v_offset it)); ("end", VNat (v_end it))].
(** A step: the item, and the iterator that the [&mut self] is then. *)
Definition lift_step {A B} (f : A -> value) (g : B -> value) (x : outcome (A * B)) : outcome (value * list value) :=
  let! r := x in Ret (f (fst r), [g (snd r)]).

Ltac iter_fn := intro; match goal with H : 30 <= ?n |- _ => fuel n 30 end; repeat (enter; run); reflexivity.

Lemma PrivateUseIter_new_src {M} n s :
  30 <= n -> call M crate n (VPath ["PrivateUseIter"; "new"]) [VStr s] = Ret (viter_of "PrivateUseIter" (PrivateUseIter_new s), []).
Proof. iter_fn. Qed.
Lemma PrivateUse_iter_src {M} n s :
  30 <= n -> call M crate n (VPath ["PrivateUse"; "iter"]) [vtag PrivateUseT s] =
             Ret (viter_of "PrivateUseIter" (PrivateUse_iter s), []).
Proof. iter_fn. Qed.
Lemma PrivateUseIter_empty_src {M} n :
  30 <= n -> call M crate n (VPath ["PrivateUseIter"; "empty"]) [] = Ret (viter_of "PrivateUseIter" iter_default, []).
Proof. iter_fn. Qed.
Lemma ExtensionIter_new_src {M} n s :
  30 <= n -> call M crate n (VPath ["ExtensionIter"; "new"]) [VStr s] = Ret (viter_of "ExtensionIter" (ExtensionIter_new s), []).
Proof. iter_fn. Qed.
Lemma Extension_iter_src {M} n s :
  30 <= n -> call M crate n (VPath ["Extension"; "iter"]) [vtag ExtensionT s] =
             Ret (viter_of "ExtensionIter" (Extension_iter s), []).
Proof. iter_fn. Qed.
Lemma ExtensionIter_empty_src {M} n :
  30 <= n -> call M crate n (VPath ["ExtensionIter"; "empty"]) [] = Ret (viter_of "ExtensionIter" iter_default, []).
Proof. iter_fn. Qed.
Lemma LanguageExtensionIter_new_src {M} n s :
  30 <= n -> call M crate n (VPath ["LanguageExtensionIter"; "new"]) [VStr s] =
             Ret (viter_of "LanguageExtensionIter" (LanguageExtensionIter_new s), []).
Proof. iter_fn. Qed.
Lemma LanguageExtension_iter_src {M} n s :
  30 <= n -> call M crate n (VPath ["LanguageExtension"; "iter"]) [vtag LanguageExtensionT s] =
             Ret (viter_of "LanguageExtensionIter" (LanguageExtension_iter s), []).
Proof. iter_fn. Qed.
Lemma LanguageExtensionIter_empty_src {M} n :
  30 <= n -> call M crate n (VPath ["LanguageExtensionIter"; "empty"]) [] =
             Ret (viter_of "LanguageExtensionIter" iter_default, []).
Proof. iter_fn. Qed.
Lemma ExtensionsIter_new_src {M} n s :
  30 <= n -> call M crate n (VPath ["ExtensionsIter"; "new"]) [VStr s] =
             Ret (viter_of "ExtensionsIter" (ExtensionsIter_new s), []).
Proof. iter_fn. Qed.
Lemma Extensions_iter_src {M} n s :
  30 <= n -> call M crate n (VPath ["Extensions"; "iter"]) [vtag ExtensionsT s] =
             Ret (viter_of "ExtensionsIter" (Extensions_iter s), []).
Proof. iter_fn. Qed.
Lemma VariantsIter_new_src {M} n s :
  30 <= n -> call M crate n (VPath ["VariantsIter"; "new"]) [VStr s] = Ret (vviter (VariantsIter_new s), []).
Proof. iter_fn. Qed.
Lemma Variants_iter_src {M} n s :
  30 <= n -> call M crate n (VPath ["Variants"; "iter"]) [vtag VariantsT s] = Ret (vviter (Variants_iter s), []).
Proof. iter_fn. Qed.
Lemma VariantsIter_empty_src {M} n :
  30 <= n -> call M crate n (VPath ["VariantsIter"; "empty"]) [] = Ret (vviter viter_default, []).
Proof. iter_fn. Qed.

Ltac segment_next :=
  match goal with |- _ -> _ -> call _ _ ?n _ [_ _ ?it] = _ => destruct it as [s o]; intros ? ?; fuel n 30 end;
  unfold viter_of; cbn [it_data it_offset] in *; enter; run; unfold lift_step;
  match goal with |- context [?o <? length ?s] => destruct (o <? length s) eqn:? end; run; [|reflexivity];
  rewrite find_segment_end_src by lia; unfold lift;
  match goal with |- context [find_segment_end ?s ?o] => destruct (find_segment_end s o) as [e| |] eqn:? end;
  [|reflexivity|reflexivity]; run;
  match goal with |- context [slice ?s ?o ?e] => destruct (slice s o e) eqn:? end; [|reflexivity|reflexivity]; run; reflexivity.

Lemma PrivateUseIter_next_src {M} n it :
  100 + length (it_data it) <= n -> length (it_data it) + 4 <= M ->
  call M crate n (VPath ["PrivateUseIter"; "next"]) [viter_of "PrivateUseIter" it] =
  lift_step (voption (vtag PrivateUseSubtagT)) (viter_of "PrivateUseIter") (PrivateUseIter_next it).
Proof. unfold PrivateUseIter_next. segment_next. Qed.
Lemma ExtensionIter_next_src {M} n it :
  100 + length (it_data it) <= n -> length (it_data it) + 4 <= M ->
  call M crate n (VPath ["ExtensionIter"; "next"]) [viter_of "ExtensionIter" it] =
  lift_step (voption (vtag ExtensionSubtagT)) (viter_of "ExtensionIter") (ExtensionIter_next it).
Proof. unfold ExtensionIter_next. segment_next. Qed.
Lemma LanguageExtensionIter_next_src {M} n it :
  100 + length (it_data it) <= n -> length (it_data it) + 4 <= M ->
  call M crate n (VPath ["LanguageExtensionIter"; "next"]) [viter_of "LanguageExtensionIter" it] =
  lift_step (voption (vtag ExtendedLangTagT)) (viter_of "LanguageExtensionIter") (LanguageExtensionIter_next it).
Proof. unfold LanguageExtensionIter_next. segment_next. Qed.

Lemma ExtensionsIter_next_src {M} n it :
  250 + 2 * length (it_data it) <= n -> length (it_data it) + 4 <= M ->
  call M crate n (VPath ["ExtensionsIter"; "next"]) [viter_of "ExtensionsIter" it] =
  lift_step (voption (vtag ExtensionT)) (viter_of "ExtensionsIter") (ExtensionsIter_next it).
Proof.
  destruct it as [s o]. intros Hn HM. fuel n 30. unfold ExtensionsIter_next, viter_of.
  cbn [it_data it_offset] in *. enter. run. unfold lift_step.
  destruct (o <? length s) eqn:?; run; [|reflexivity].
  erewrite (find_list_end_src _ s (o + 2) _ (fun _ segment => new_is_ok ExtensionSubtag segment) (120 + length s)).
  - unfold lift. destruct (find_list_end s (o + 2) _) as [x| |] eqn:?; run; [|reflexivity|reflexivity].
    destruct (slice s o x) eqn:?; [|reflexivity|reflexivity]. run. reflexivity.
  - intros k i sub Hk Hs. fuel k 20. enter. run. is_ok_closure ExtensionSubtagT.
  - reflexivity.
  - lia.
  - lia.
Qed.

Lemma VariantsIter_next_src {M} n it :
  100 + length (v_data it) <= n -> length (v_data it) + 4 <= M ->
  call M crate n (VPath ["VariantsIter"; "next"]) [vviter it] =
  lift_step (voption (vtag VariantT)) vviter (VariantsIter_next it).
Proof.
  destruct it as [s o e]. intros Hn HM. fuel n 30. unfold VariantsIter_next, vviter. cbn [v_data v_offset v_end] in *.
  enter. run. unfold lift_step.
  destruct (o <? e) eqn:?; run; [|reflexivity].
  rewrite find_segment_end_src by lia. unfold lift.
  destruct (find_segment_end s o) as [x| |] eqn:?; [|reflexivity|reflexivity]. run.
  destruct (slice s o x) eqn:?; [|reflexivity|reflexivity]. run. reflexivity.
Qed.
Lemma VariantsIter_next_back_src {M} n it :
  100 + v_end it <= n -> length (v_data it) + 4 <= M ->
  call M crate n (VPath ["VariantsIter"; "next_back"]) [vviter it] =
  lift_step (voption (vtag VariantT)) vviter (VariantsIter_next_back it).
Proof.
  destruct it as [s o e]. intros Hn HM. fuel n 30. unfold VariantsIter_next_back, vviter. cbn [v_data v_offset v_end] in *.
  enter. run. unfold lift_step.
  destruct (o <? e) eqn:?; run; [|reflexivity].
  rewrite find_segment_start_src by lia. unfold lift.
  destruct (find_segment_start s e) as [x| |]; [|reflexivity|reflexivity]. run.
  destruct (slice s x e); [|reflexivity|reflexivity]. run.
  destruct x as [|x]; cbn [Nat.ltb Nat.leb]; run; [reflexivity|]. cbn [Nat.leb]. run. reflexivity.
Qed.
