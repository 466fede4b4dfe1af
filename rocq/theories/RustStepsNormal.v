(** How many steps the functions of normal/ take. *)
From Verif Require Import Base Validate Utils Normal NoOverflow Newtypes.
From Verif Require Import RustSyntax RustEval RustCount RustProgram RustRefine RustGrammar RustValidate RustNormal RustAccess
  RustTags RustSteps.
Import Base.
Open Scope string_scope.
Open Scope nat_scope.
Open Scope list_scope.

(** * 1. Segments *)

Lemma find_segment_end_steps {M} n s off :
  60 + length s <= n -> length s + 4 <= M ->
  priced M n (VPath ["find_segment_end"]) [VStr s; VNat off] (lift VNat (find_segment_end s off)) (60 * length s + 60).
Proof.
  intros Hn HM. apply priced_intro; [now apply find_segment_end_src|]. intro s0. fuel n 50. kenter. krun.
  match goal with
  | |- context [keval M crate ?n0 (?i0 :: ?e) (EWhile ?c ?b) ?t0] =>
    rest (keval M crate n0 (i0 :: e) (EWhile c b) t0) ltac:(fun Q =>
    assert (forall g i n t, 30 + g <= n -> length s - i <= g ->
      Q (keval M crate n (("i", VNat i) :: e) (EWhile c b) t) <= 60 * g + 40 + t) as L)
  end.
  { cbv beta. induction g as [|g IH]; intros i n t Hn' Hg; fuel n 30; kunroll.
    - destruct (i <? length s) eqn:E; [apply Nat.ltb_lt in E; lia|]. over.
    - destruct (i <? length s) eqn:E; krun; [|over].
      destruct (index s i) as [b| |] eqn:?; [|over|over]. krun.
      destruct (beq b dash) eqn:B; unfold dash in B; rewrite B; krun; [over|]. again IH. }
  eapply Nat.le_trans; [apply (L (length s)); lia|lia].
Qed.

Lemma find_segment_start_steps {M} n s e :
  60 + e <= n -> length s + 4 <= M ->
  priced M n (VPath ["find_segment_start"]) [VStr s; VNat e] (lift VNat (find_segment_start s e)) (60 * e + 60).
Proof.
  intros Hn HM. apply priced_intro; [now apply find_segment_start_src|]. intro s0. fuel n 50. kenter. krun.
  destruct e as [|e]; krun; [cbn [Nat.ltb Nat.leb]; over|].
  cbn [Nat.ltb Nat.leb]. krun. cbn [Nat.leb Nat.sub]. krun. rewrite ?Nat.sub_0_r.
  match goal with
  | |- context [keval M crate ?n0 (?i0 :: ?e) (ELoop ?b) ?t0] =>
    rest (keval M crate n0 (i0 :: e) (ELoop b) t0) ltac:(fun Q =>
    assert (forall i n t, 30 + i <= n ->
      Q (keval M crate n (("i", VNat i) :: e) (ELoop b) t) <= 60 * i + 60 + t) as L)
  end.
  { cbv beta. induction i as [|i IH]; intros n t Hn'; fuel n 30; kunroll;
      (destruct (index s _) as [b| |] eqn:?; [|over|over]); krun;
      destruct (beq b dash) eqn:B; unfold dash in B; rewrite B; krun; try over; try (cbn [Nat.ltb Nat.leb]; over).
    cbn [Nat.ltb Nat.leb]. krun. cbn [Nat.leb Nat.sub]. krun. rewrite ?Nat.sub_0_r. again IH. }
  again L.
Qed.

(** * 2. Singleton *)

Lemma Singleton_new_steps {M} n c :
  40 <= n ->
  priced M n (VPath ["Singleton"; "new"]) [VByte c] (Ret (vsingleton_result VByte (Singleton_new c), [])) 40.
Proof.
  intro Hn. apply priced_intro; [now apply Singleton_new_src|]. intro s0. fuel n 40. kenter. krun.
  destruct (beq c "x"); krun; [over|]. destruct (beq c "X"); krun; [over|].
  destruct (is_ascii_alphanumeric c); over.
Qed.
Lemma Singleton_try_from_u8_steps {M} n c :
  60 <= n ->
  priced M n (VPath ["Singleton"; "as"; "TryFrom"; "u8"; "try_from"]) [VByte c]
    (Ret (vsingleton_result VByte (Singleton_try_from_u8 c), [])) 50.
Proof.
  intro Hn. apply priced_intro; [now apply Singleton_try_from_u8_src|]. intro s0. fuel n 20. kenter. krun.
  uses @Singleton_new_steps. over.
Qed.
Lemma Singleton_try_from_char_steps {M} n c :
  80 <= n ->
  priced M n (VPath ["Singleton"; "as"; "TryFrom"; "char"; "try_from"]) [VChar c]
    (Ret (vsingleton_result VChar (Singleton_try_from_char c), [])) 80.
Proof.
  intro Hn. apply priced_intro; [now apply Singleton_try_from_char_src|]. intro s0. fuel n 40. kenter. krun.
  change (code xff) with 255%N.
  destruct (c <? 255)%N; krun; [|over].
  destruct (u8_as c) as (b & E & _). rewrite E. krun.
  uses @Singleton_new_steps. destruct (Singleton_new b); over.
Qed.
Lemma Singleton_from_string_steps {M} n s :
  110 <= n ->
  priced M n (VPath ["Singleton"; "from_string"]) [VStr s] (lift (vsingleton_result VStr) (Singleton_from_string s)) 110.
Proof.
  intro Hn. apply priced_intro; [now apply Singleton_from_string_src|]. intro s0. fuel n 30. kenter. krun.
  destruct (length s =? 1) eqn:E; krun; [|over].
  destruct s as [|b s]; [discriminate|].
  destruct (decode_utf8_char (b :: s) 0) as [[c k]|]; [|over]. krun.
  uses @Singleton_try_from_char_steps.
  destruct (Singleton_try_from_char c); over.
Qed.
Lemma Singleton_from_str_steps {M} n s :
  140 <= n ->
  priced M n (VPath ["Singleton"; "from_str"]) [VStr s] (lift (vsingleton_result VStr) (Singleton_from_str s))
    (length s + 130).
Proof.
  intro Hn. apply priced_intro; [now apply Singleton_from_str_src|]. intro s0. fuel n 30. kenter. krun.
  uses @Singleton_from_string_steps.
  destruct (Singleton_from_string s) as [[]| |]; over.
Qed.
Lemma Singleton_unwrap_steps {M} n b :
  20 <= n -> priced M n (VPath ["Singleton"; "unwrap"]) [vsingleton b] (Ret (VByte (Singleton_unwrap b), [])) 20.
Proof. intro Hn. apply priced_intro; [now apply Singleton_unwrap_src|]. intro s0. fuel n 20. kenter. over. Qed.
Lemma Singleton_eq_u8_steps {M} n a b :
  20 <= n ->
  priced M n (VPath ["Singleton"; "as"; "PartialEq"; "u8"; "eq"]) [vsingleton a; VByte b]
    (Ret (VBool (Singleton_eq_u8 a b), [])) 20.
Proof. intro Hn. apply priced_intro; [now apply Singleton_eq_u8_src|]. intro s0. fuel n 20. kenter. over. Qed.
Lemma Singleton_eq_char_steps {M} n a c :
  20 <= n ->
  priced M n (VPath ["Singleton"; "as"; "PartialEq"; "char"; "eq"]) [vsingleton a; VChar c]
    (Ret (VBool (Singleton_eq_char a c), [])) 20.
Proof. intro Hn. apply priced_intro; [now apply Singleton_eq_char_src|]. intro s0. fuel n 20. kenter. over. Qed.
Lemma Singleton_display_steps {M} n b l :
  20 <= n -> is_ascii_alphanumeric b = true ->
  priced M n (VPath ["Singleton"; "as"; "Display"; ""; "fmt"]) [vsingleton b; VSink l] (Ret (okv VUnit, [VSink (l ++ [b])])) 20.
Proof.
  intros Hn H. apply priced_intro; [now apply Singleton_display_src|]. intro s0. fuel n 20. kenter. krun.
  destruct (encode_latin1 (code b)); over.
Qed.
Lemma Singleton_debug_steps {M} n b l :
  20 <= n -> is_ascii_alphanumeric b = true ->
  priced M n (VPath ["Singleton"; "as"; "Debug"; ""; "fmt"]) [vsingleton b; VSink l]
    (Ret (okv VUnit, [VSink (l ++ [x27; b; x27])])) 20.
Proof.
  intros Hn H. apply priced_intro; [now apply Singleton_debug_src|]. intro s0. fuel n 20. kenter. krun.
  replace (u8_of (code b)) with (Some b) by (destruct b; reflexivity). rewrite H. over.
Qed.

(** * 3. NormalLangTag *)

(** Uses the cost of the call of [validate_bytes] made by [new]. *)
Ltac kvalidated ty :=
  let H := fresh in
  pose proof (fun M => @validate_bytes_steps M ty) as H; cbv [grammar_type automaton_name append automaton_of] in H;
  uses H; clear H.
(** Uses the cost of the call of [find_list_end]: [r] runs the closure, [c] counts it. *)
Ltac scans F K r c :=
  lazymatch goal with
  | |- ?l <= _ =>
    let h := khead l in
    lazymatch h with
    | kcall ?M0 crate ?n ?f ?a ?s =>
      let H := fresh in
      let t := fresh "c" in
      let E := fresh in
      let B := fresh in
      eassert (priced M0 n f a _ _) as H by (eapply (@find_list_end_steps M0 _ _ _ _ F K);
        [ let k := fresh "k" in let o := fresh "o" in let sub := fresh "sub" in let Hk := fresh in let Hs := fresh in
          intros k o sub Hk Hs; apply priced_intro; [r k o sub | let s0 := fresh in intro s0; c k o sub]
        | reflexivity | lia | lia ]);
      destruct (priced_use _ _ _ _ _ _ s H) as (t & E & B); rewrite E; clear E H
    end
  end.

Lemma language_end_steps {M} n s :
  200 + 2 * length s <= n -> length s + 4 <= M ->
  priced M n (VPath ["NormalLangTag"; "language_end"]) [vtag NormalLangTagT s] (lift VNat (language_end s))
    (500 * length s + 600).
Proof.
  intros Hn HM. apply priced_intro; [now apply language_end_src|]. intro s0. fuel n 20. kenter. krun.
  scans (fun i segment => if i =? 0 then Ret true else new_is_ok ExtlangTag segment) (120 + length s)
    ltac:(fun k o sub => fuel k 20; enter; run; destruct (o =? 0); run; [reflexivity|];
      unfold new_is_ok, new; validated ExtendedLangTagT; destruct (validate ExtlangTag sub) as [[]| |]; run; reflexivity)
    ltac:(fun k o sub => fuel k 20; kenter; krun; destruct (o =? 0); krun; [over|];
      kvalidated ExtendedLangTagT; destruct (validate ExtlangTag sub) as [[]| |]; over).
  destruct (find_list_end s 0 _); over.
Qed.

(** A closure that asks whether [segment] is a value of the type. *)
Ltac kis_ok ty :=
  kvalidated ty; match goal with |- context [validate ?A ?s] => destruct (validate A s) as [[]| |]; over end.

Lemma NormalLangTag_language_steps {M} n s :
  240 + 2 * length s <= n -> length s + 4 <= M ->
  priced M n (VPath ["NormalLangTag"; "language"]) [vtag NormalLangTagT s]
    (lift (vtag LanguageT) (NormalLangTag_language s)) (500 * length s + 700).
Proof.
  intros Hn HM. apply priced_intro; [now apply NormalLangTag_language_src|]. intro s0. fuel n 20. kenter. krun.
  uses @language_end_steps. destruct (language_end s) as [e| |] eqn:?; [|over|over]. krun.
  destruct (slice_to s e); over.
Qed.


Lemma script_range_steps {M} n s :
  240 + 2 * length s <= n -> length s + 4 <= M ->
  priced M n (VPath ["NormalLangTag"; "script_range"]) [vtag NormalLangTagT s] (lift vrange_result (script_range s))
    (1000 * length s + 1300).
Proof.
  intros Hn HM. apply priced_intro; [now apply script_range_src|]. intro s0. fuel n 30. kenter. krun.
  uses @language_end_steps. destruct (language_end s) as [e| |] eqn:?; [|over|over]. krun.
  scans (fun i segment => if i =? e + 1 then new_is_ok Script segment else Ret false) (120 + length s)
    ltac:(fun k o sub => fuel k 20; enter; run; destruct (o =? e + 1); run; [|reflexivity]; is_ok_closure ScriptT)
    ltac:(fun k o sub => fuel k 20; kenter; krun; destruct (o =? e + 1); krun; [|over]; kis_ok ScriptT).
  destruct (find_list_end s (e + 1) _) as [x| |] eqn:?; krun; [|over|over]. destruct (x =? e + 1); over.
Qed.
Lemma NormalLangTag_script_steps {M} n s :
  280 + 2 * length s <= n -> length s + 4 <= M ->
  priced M n (VPath ["NormalLangTag"; "script"]) [vtag NormalLangTagT s]
    (lift (voption (vtag ScriptT)) (NormalLangTag_script s)) (1000 * length s + 1400).
Proof.
  intros Hn HM. apply priced_intro; [now apply NormalLangTag_script_src|]. intro s0. fuel n 20. kenter. krun.
  uses @script_range_steps. destruct (script_range s) as [[[a b]|i]| |] eqn:?; krun; try over.
  destruct (slice s a b); over.
Qed.

Lemma region_range_steps {M} n s :
  280 + 2 * length s <= n -> length s + 4 <= M ->
  priced M n (VPath ["NormalLangTag"; "region_range"]) [vtag NormalLangTagT s] (lift vrange_result (region_range s))
    (1500 * length s + 2000).
Proof.
  intros Hn HM. apply priced_intro; [now apply region_range_src|]. intro s0. fuel n 30. kenter. krun.
  uses @script_range_steps. destruct (script_range s) as [r| |] eqn:?; [|over|over].
  destruct r as [[a e]|e]; krun;
  (scans (fun i segment => if i =? e + 1 then new_is_ok Region segment else Ret false) (120 + length s)
    ltac:(fun k o sub => fuel k 20; enter; run; destruct (o =? e + 1); run; [|reflexivity]; is_ok_closure RegionT)
    ltac:(fun k o sub => fuel k 20; kenter; krun; destruct (o =? e + 1); krun; [|over]; kis_ok RegionT);
  destruct (find_list_end s (e + 1) _) as [x| |] eqn:?; krun; [|over|over]; destruct (x =? e + 1); over).
Qed.
Lemma NormalLangTag_region_steps {M} n s :
  320 + 2 * length s <= n -> length s + 4 <= M ->
  priced M n (VPath ["NormalLangTag"; "region"]) [vtag NormalLangTagT s]
    (lift (voption (vtag RegionT)) (NormalLangTag_region s)) (1500 * length s + 2100).
Proof.
  intros Hn HM. apply priced_intro; [now apply NormalLangTag_region_src|]. intro s0. fuel n 20. kenter. krun.
  uses @region_range_steps. destruct (region_range s) as [[[a b]|i]| |] eqn:?; krun; try over.
  destruct (slice s a b); over.
Qed.

Lemma variants_range_steps {M} n s :
  320 + 2 * length s <= n -> length s + 4 <= M ->
  priced M n (VPath ["NormalLangTag"; "variants_range"]) [vtag NormalLangTagT s] (lift vrange (variants_range s))
    (2000 * length s + 2700).
Proof.
  intros Hn HM. apply priced_intro; [now apply variants_range_src|]. intro s0. fuel n 30. kenter. krun.
  uses @region_range_steps. destruct (region_range s) as [r| |] eqn:?; [|over|over].
  destruct r as [[a e]|e]; krun;
  (scans (fun (_ : nat) segment => new_is_ok Variant segment) (120 + length s)
    ltac:(fun k o sub => fuel k 20; enter; run; is_ok_closure VariantT)
    ltac:(fun k o sub => fuel k 20; kenter; krun; kis_ok VariantT);
  destruct (find_list_end s (e + 1) _) as [x| |] eqn:?; krun; [|over|over]; destruct (x =? e + 1); over).
Qed.
Lemma NormalLangTag_variants_steps {M} n s :
  360 + 2 * length s <= n -> length s + 4 <= M ->
  priced M n (VPath ["NormalLangTag"; "variants"]) [vtag NormalLangTagT s]
    (lift (vtag VariantsT) (NormalLangTag_variants s)) (2000 * length s + 2800).
Proof.
  intros Hn HM. apply priced_intro; [now apply NormalLangTag_variants_src|]. intro s0. fuel n 20. kenter. krun.
  uses @variants_range_steps. destruct (variants_range s) as [[a b]| |] eqn:?; krun; try over.
  destruct (slice s a b); over.
Qed.

Lemma extensions_range_steps {M} n s :
  400 + 2 * length s <= n -> length s + 4 <= M ->
  priced M n (VPath ["NormalLangTag"; "extensions_range"]) [vtag NormalLangTagT s] (lift vrange (extensions_range s))
    (2500 * length s + 3400).
Proof.
  intros Hn HM. apply priced_intro; [now apply extensions_range_src|]. intro s0. fuel n 30. kenter. krun.
  uses @variants_range_steps. destruct (variants_range s) as [[a e]| |] eqn:?; [|over|over]. krun.
  scans (fun (_ : nat) segment =>
    let! a := Singleton_from_string segment in if is_ok a then Ret true else new_is_ok ExtensionSubtag segment)
    (140 + length s)
    ltac:(fun k o sub => fuel k 30; enter; run; rewrite Singleton_from_string_src by lia; unfold lift;
      destruct (Singleton_from_string sub) as [[]| |]; run; cbn [is_ok]; try reflexivity; is_ok_closure ExtensionSubtagT)
    ltac:(fun k o sub => fuel k 30; kenter; krun; uses @Singleton_from_string_steps;
      destruct (Singleton_from_string sub) as [[]| |]; krun; try over; kis_ok ExtensionSubtagT).
  destruct (find_list_end s (e + 1) _) as [x| |] eqn:?; krun; [|over|over]. destruct (x =? e + 1); over.
Qed.
Lemma NormalLangTag_extensions_steps {M} n s :
  440 + 2 * length s <= n -> length s + 4 <= M ->
  priced M n (VPath ["NormalLangTag"; "extensions"]) [vtag NormalLangTagT s]
    (lift (vtag ExtensionsT) (NormalLangTag_extensions s)) (2500 * length s + 3500).
Proof.
  intros Hn HM. apply priced_intro; [now apply NormalLangTag_extensions_src|]. intro s0. fuel n 20. kenter. krun.
  uses @extensions_range_steps. destruct (extensions_range s) as [[a b]| |]; krun; try over.
  destruct (slice s a b); over.
Qed.

Lemma private_use_offset_steps {M} n s :
  360 + 2 * length s <= n -> length s + 4 <= M ->
  priced M n (VPath ["NormalLangTag"; "private_use_offset"]) [vtag NormalLangTagT s]
    (lift (voption VNat) (private_use_offset s)) (2000 * length s + 2800).
Proof.
  intros Hn HM. apply priced_intro; [now apply private_use_offset_src|]. intro s0. fuel n 20. kenter. krun.
  uses @variants_range_steps. destruct (variants_range s) as [[a b]| |] eqn:?; krun; try over.
  destruct (b <? length s); over.
Qed.
Lemma NormalLangTag_private_use_steps {M} n s :
  400 + 2 * length s <= n -> length s + 4 <= M ->
  priced M n (VPath ["NormalLangTag"; "private_use"]) [vtag NormalLangTagT s]
    (lift (voption (vtag PrivateUseT)) (NormalLangTag_private_use s)) (2000 * length s + 2900).
Proof.
  intros Hn HM. apply priced_intro; [now apply NormalLangTag_private_use_src|]. intro s0. fuel n 20. kenter. krun.
  uses @private_use_offset_steps. destruct (private_use_offset s) as [[i|]| |]; krun; try over.
  destruct (slice_from s i); over.
Qed.
Lemma NormalLangTag_private_use_subtags_steps {M} n s :
  440 + 2 * length s <= n -> length s + 4 <= M ->
  priced M n (VPath ["NormalLangTag"; "private_use_subtags"]) [vtag NormalLangTagT s]
    (lift (viter_of "PrivateUseIter") (NormalLangTag_private_use_subtags s)) (2000 * length s + 3000).
Proof.
  intros Hn HM. apply priced_intro; [now apply NormalLangTag_private_use_subtags_src|]. intro s0. fuel n 30. kenter. krun.
  uses @NormalLangTag_private_use_steps.
  destruct (NormalLangTag_private_use s) as [[p|]| |]; krun; repeat (kenter; krun); over.
Qed.

(** * 4. Iterators *)

Ltac kiter_fn L :=
  let H := fresh in intro H; apply priced_intro; [now apply L|]; let s0 := fresh "s0" in intro s0;
  match goal with H : 30 <= ?n |- _ => fuel n 30 end; repeat (kenter; krun); over.


Lemma PrivateUseIter_new_steps {M} n s :
  30 <= n -> priced M n (VPath ["PrivateUseIter"; "new"]) [VStr s] (Ret (viter_of "PrivateUseIter" (PrivateUseIter_new s), [])) 30.
Proof. kiter_fn (@PrivateUseIter_new_src M). Qed.
Lemma PrivateUse_iter_steps {M} n s :
  30 <= n -> priced M n (VPath ["PrivateUse"; "iter"]) [vtag PrivateUseT s] (Ret (viter_of "PrivateUseIter" (PrivateUse_iter s), [])) 30.
Proof. kiter_fn (@PrivateUse_iter_src M). Qed.
Lemma PrivateUseIter_empty_steps {M} n :
  30 <= n -> priced M n (VPath ["PrivateUseIter"; "empty"]) [] (Ret (viter_of "PrivateUseIter" iter_default, [])) 30.
Proof. kiter_fn (@PrivateUseIter_empty_src M). Qed.

Lemma ExtensionIter_new_steps {M} n s :
  30 <= n -> priced M n (VPath ["ExtensionIter"; "new"]) [VStr s] (Ret (viter_of "ExtensionIter" (ExtensionIter_new s), [])) 30.
Proof. kiter_fn (@ExtensionIter_new_src M). Qed.
Lemma Extension_iter_steps {M} n s :
  30 <= n -> priced M n (VPath ["Extension"; "iter"]) [vtag ExtensionT s] (Ret (viter_of "ExtensionIter" (Extension_iter s), [])) 30.
Proof. kiter_fn (@Extension_iter_src M). Qed.
Lemma ExtensionIter_empty_steps {M} n :
  30 <= n -> priced M n (VPath ["ExtensionIter"; "empty"]) [] (Ret (viter_of "ExtensionIter" iter_default, [])) 30.
Proof. kiter_fn (@ExtensionIter_empty_src M). Qed.

Lemma LanguageExtensionIter_new_steps {M} n s :
  30 <= n -> priced M n (VPath ["LanguageExtensionIter"; "new"]) [VStr s] (Ret (viter_of "LanguageExtensionIter" (LanguageExtensionIter_new s), [])) 30.
Proof. kiter_fn (@LanguageExtensionIter_new_src M). Qed.
Lemma LanguageExtension_iter_steps {M} n s :
  30 <= n -> priced M n (VPath ["LanguageExtension"; "iter"]) [vtag LanguageExtensionT s] (Ret (viter_of "LanguageExtensionIter" (LanguageExtension_iter s), [])) 30.
Proof. kiter_fn (@LanguageExtension_iter_src M). Qed.
Lemma LanguageExtensionIter_empty_steps {M} n :
  30 <= n -> priced M n (VPath ["LanguageExtensionIter"; "empty"]) [] (Ret (viter_of "LanguageExtensionIter" iter_default, [])) 30.
Proof. kiter_fn (@LanguageExtensionIter_empty_src M). Qed.

Lemma ExtensionsIter_new_steps {M} n s :
  30 <= n -> priced M n (VPath ["ExtensionsIter"; "new"]) [VStr s] (Ret (viter_of "ExtensionsIter" (ExtensionsIter_new s), [])) 30.
Proof. kiter_fn (@ExtensionsIter_new_src M). Qed.
Lemma Extensions_iter_steps {M} n s :
  30 <= n -> priced M n (VPath ["Extensions"; "iter"]) [vtag ExtensionsT s] (Ret (viter_of "ExtensionsIter" (Extensions_iter s), [])) 30.
Proof. kiter_fn (@Extensions_iter_src M). Qed.

Lemma VariantsIter_new_steps {M} n s :
  30 <= n -> priced M n (VPath ["VariantsIter"; "new"]) [VStr s] (Ret (vviter (VariantsIter_new s), [])) 30.
Proof. kiter_fn (@VariantsIter_new_src M). Qed.
Lemma Variants_iter_steps {M} n s :
  30 <= n -> priced M n (VPath ["Variants"; "iter"]) [vtag VariantsT s] (Ret (vviter (Variants_iter s), [])) 30.
Proof. kiter_fn (@Variants_iter_src M). Qed.
Lemma VariantsIter_empty_steps {M} n :
  30 <= n -> priced M n (VPath ["VariantsIter"; "empty"]) [] (Ret (vviter viter_default, [])) 30.
Proof. kiter_fn (@VariantsIter_empty_src M). Qed.

Ltac ksegment_next L :=
  let Hn := fresh in let HM := fresh in
  intros Hn HM; apply priced_intro; [now apply L|]; let s0 := fresh "s0" in intro s0;
  match type of Hn with _ <= ?n => match type of HM with length (it_data ?it) + 4 <= _ => destruct it as [s o]; fuel n 30 end end;
  unfold viter_of; cbn [it_data it_offset] in *; kenter; krun;
  match goal with |- context [?o <? length ?s] => destruct (o <? length s) eqn:? end; krun; [|over];
  uses @find_segment_end_steps;
  match goal with |- context [find_segment_end ?s ?o] => destruct (find_segment_end s o) as [e| |] eqn:? end;
  [|over|over]; krun;
  match goal with |- context [slice ?s ?o ?e] => destruct (slice s o e) eqn:? end; over.


Lemma PrivateUseIter_next_steps {M} n it :
  100 + length (it_data it) <= n -> length (it_data it) + 4 <= M ->
  priced M n (VPath ["PrivateUseIter"; "next"]) [viter_of "PrivateUseIter" it]
    (lift_step (voption (vtag PrivateUseSubtagT)) (viter_of "PrivateUseIter") (PrivateUseIter_next it)) (60 * length (it_data it) + 200).
Proof. ksegment_next (@PrivateUseIter_next_src M). Qed.
Lemma ExtensionIter_next_steps {M} n it :
  100 + length (it_data it) <= n -> length (it_data it) + 4 <= M ->
  priced M n (VPath ["ExtensionIter"; "next"]) [viter_of "ExtensionIter" it]
    (lift_step (voption (vtag ExtensionSubtagT)) (viter_of "ExtensionIter") (ExtensionIter_next it)) (60 * length (it_data it) + 200).
Proof. ksegment_next (@ExtensionIter_next_src M). Qed.
Lemma LanguageExtensionIter_next_steps {M} n it :
  100 + length (it_data it) <= n -> length (it_data it) + 4 <= M ->
  priced M n (VPath ["LanguageExtensionIter"; "next"]) [viter_of "LanguageExtensionIter" it]
    (lift_step (voption (vtag ExtendedLangTagT)) (viter_of "LanguageExtensionIter") (LanguageExtensionIter_next it)) (60 * length (it_data it) + 200).
Proof. ksegment_next (@LanguageExtensionIter_next_src M). Qed.

Lemma ExtensionsIter_next_steps {M} n it :
  250 + 2 * length (it_data it) <= n -> length (it_data it) + 4 <= M ->
  priced M n (VPath ["ExtensionsIter"; "next"]) [viter_of "ExtensionsIter" it]
    (lift_step (voption (vtag ExtensionT)) (viter_of "ExtensionsIter") (ExtensionsIter_next it))
    (500 * length (it_data it) + 600).
Proof.
  intros Hn HM. apply priced_intro; [now apply ExtensionsIter_next_src|]. intro s0.
  destruct it as [s o]. fuel n 30. unfold viter_of. cbn [it_data it_offset] in *. kenter. krun.
  destruct (o <? length s) eqn:?; krun; [|over].
  scans (fun (_ : nat) segment => new_is_ok ExtensionSubtag segment) (120 + length s)
    ltac:(fun k o sub => fuel k 20; enter; run; is_ok_closure ExtensionSubtagT)
    ltac:(fun k o sub => fuel k 20; kenter; krun; kis_ok ExtensionSubtagT).
  destruct (find_list_end s (o + 2) _) as [x| |] eqn:?; krun; [|over|over].
  destruct (slice s o x) eqn:?; over.
Qed.
Lemma VariantsIter_next_steps {M} n it :
  100 + length (v_data it) <= n -> length (v_data it) + 4 <= M ->
  priced M n (VPath ["VariantsIter"; "next"]) [vviter it]
    (lift_step (voption (vtag VariantT)) vviter (VariantsIter_next it)) (60 * length (v_data it) + 200).
Proof.
  intros Hn HM. apply priced_intro; [now apply VariantsIter_next_src|]. intro s0.
  destruct it as [s o e]. fuel n 30. unfold vviter. cbn [v_data v_offset v_end] in *. kenter. krun.
  destruct (o <? e) eqn:?; krun; [|over].
  uses @find_segment_end_steps.
  destruct (find_segment_end s o) as [x| |] eqn:?; [|over|over]. krun.
  destruct (slice s o x) eqn:?; over.
Qed.
Lemma VariantsIter_next_back_steps {M} n it :
  100 + v_end it <= n -> length (v_data it) + 4 <= M ->
  priced M n (VPath ["VariantsIter"; "next_back"]) [vviter it]
    (lift_step (voption (vtag VariantT)) vviter (VariantsIter_next_back it)) (60 * v_end it + 200).
Proof.
  intros Hn HM. apply priced_intro; [now apply VariantsIter_next_back_src|]. intro s0.
  destruct it as [s o e]. fuel n 30. unfold vviter. cbn [v_data v_offset v_end] in *. kenter. krun.
  destruct (o <? e) eqn:?; krun; [|over].
  uses @find_segment_start_steps.
  destruct (find_segment_start s e) as [x| |]; [|over|over]. krun.
  destruct (slice s x e); [|over|over]. krun.
  destruct x as [|x]; cbn [Nat.ltb Nat.leb]; krun; [over|]. cbn [Nat.leb]. over.
Qed.


(** * 5. Extension, Extensions, Variants, Language *)

Lemma Extension_singleton_steps {M} n s :
  30 <= n ->
  priced M n (VPath ["Extension"; "singleton"]) [vtag ExtensionT s] (lift vsingleton (Extension_singleton s)) 30.
Proof.
  intro Hn. apply priced_intro; [now apply Extension_singleton_src|]. intro s0. fuel n 30. kenter. krun.
  destruct (index s 0); over.
Qed.
Lemma Variants_first_steps {M} n s :
  160 + length s <= n -> length s + 4 <= M ->
  priced M n (VPath ["Variants"; "first"]) [vtag VariantsT s] (lift (voption (vtag VariantT)) (Variants_first s))
    (60 * length s + 300).
Proof.
  intros Hn HM. apply priced_intro; [now apply Variants_first_src|]. intro s0. fuel n 40. kenter. krun.
  uses @Variants_iter_steps. krun. uses @VariantsIter_next_steps; cbn [v_data Variants_iter VariantsIter_new] in *.
  unfold lift_step. destruct (VariantsIter_next (Variants_iter s)) as [[]| |]; over.
Qed.
Lemma Variants_last_steps {M} n s :
  160 + length s <= n -> length s + 4 <= M ->
  priced M n (VPath ["Variants"; "last"]) [vtag VariantsT s] (lift (voption (vtag VariantT)) (Variants_last s))
    (60 * length s + 300).
Proof.
  intros Hn HM. apply priced_intro; [now apply Variants_last_src|]. intro s0. fuel n 40. kenter. krun.
  uses @Variants_iter_steps. krun. uses @VariantsIter_next_back_steps; cbn [v_end Variants_iter VariantsIter_new] in *.
  unfold lift_step. destruct (VariantsIter_next_back (Variants_iter s)) as [[]| |]; over.
Qed.

Lemma Extensions_get_steps {M} n s c :
  200 + 2 * length s <= n -> length s + 4 <= M ->
  priced M n (VPath ["Extensions"; "get"]) [vtag ExtensionsT s; vsingleton c]
    (lift (voption (vtag ExtensionT)) (Extensions_get s c)) (600 * length s + 700).
Proof.
  intros Hn HM. apply priced_intro; [now apply Extensions_get_src|]. intro s0. fuel n 50. kenter. krun.
  match goal with
  | |- context [keval M crate ?n0 (?v1 :: ?v2 :: ?e) (EWhile ?w ?b) ?t0] =>
    rest (keval M crate n0 (v1 :: v2 :: e) (EWhile w b) t0) ltac:(fun Q =>
    assert (forall g i st n t, 140 + length s + g <= n -> length s - i <= g -> i <= length s ->
      Q (keval M crate n (("starting", VBool st) :: ("i", VNat i) :: e) (EWhile w b) t)
      <= 100 * g + 500 * length s + 650 + t) as L)
  end.
  { cbv beta. induction g as [|g IH]; intros i st n t Hn' Hg Hi; fuel n 40; kunroll.
    - destruct (i + 1 <? length s) eqn:E; [apply Nat.ltb_lt in E; lia|]. over.
    - destruct (i + 1 <? length s) eqn:E; krun; [|over].
      destruct st; krun.
      + destruct (index s i) as [b| |] eqn:?; [|over|over]. krun.
        destruct (beq b c); krun.
        * destruct (index s (i + 1)) as [b'| |] eqn:?; [|over|over]. krun.
          destruct (beq b' dash) eqn:B; unfold dash in B; rewrite B; krun.
          -- scans (fun (_ : nat) (segment : bytes) => Ret (1 <? length segment)) 20
               ltac:(fun k o sub => fuel k 20; enter; run; reflexivity)
               ltac:(fun k o sub => fuel k 20; kenter; over).
             destruct (find_list_end s (i + 2) _) as [x| |] eqn:?; krun; [|over|over].
             destruct (slice s i x); over.
          -- again IH.
        * again IH.
      + destruct (index s i) as [b| |] eqn:?; [|over|over]. krun.
        destruct (beq b dash) eqn:B; unfold dash in B; rewrite B; krun; again IH. }
  eapply Nat.le_trans; [apply (L (length s)); lia|lia].
Qed.
Lemma Extensions_iter_extension_steps {M} n s c :
  240 + 2 * length s <= n -> length s + 4 <= M ->
  priced M n (VPath ["Extensions"; "iter_extension"]) [vtag ExtensionsT s; vsingleton c]
    (lift (viter_of "ExtensionIter") (Extensions_iter_extension s c)) (600 * length s + 800).
Proof.
  intros Hn HM. apply priced_intro; [now apply Extensions_iter_extension_src|]. intro s0. fuel n 30. kenter. krun.
  uses @Extensions_get_steps. destruct (Extensions_get s c) as [[e|]| |]; krun; repeat (kenter; krun); over.
Qed.

Lemma Language_primary_steps {M} n s :
  30 <= n ->
  priced M n (VPath ["Language"; "primary"]) [vtag LanguageT s] (Ret (vtag PrimaryLanguageT (Language_primary s), []))
    (length s + 40).
Proof.
  intro Hn. apply priced_intro; [now apply Language_primary_src|]. intro s0. fuel n 30. kenter. krun.
  change (u8_of 45) with (Some dash). ktidy. destruct (split_at dash s) as [[]|]; over.
Qed.
Lemma Language_extension_steps {M} n s :
  40 <= n ->
  priced M n (VPath ["Language"; "extension"]) [vtag LanguageT s]
    (Ret (voption (vtag LanguageExtensionT) (Language_extension s), [])) (length s + 40).
Proof.
  intro Hn. apply priced_intro; [now apply Language_extension_src|]. intro s0. fuel n 40. kenter. krun.
  change (u8_of 45) with (Some dash). ktidy. destruct (split_at dash s) as [[]|]; over.
Qed.
Lemma Language_extension_subtags_steps {M} n s :
  80 <= n ->
  priced M n (VPath ["Language"; "extension_subtags"]) [vtag LanguageT s]
    (Ret (viter_of "LanguageExtensionIter" (Language_extension_subtags s), [])) (length s + 100).
Proof.
  intro Hn. apply priced_intro; [now apply Language_extension_subtags_src|]. intro s0. fuel n 40. kenter. krun.
  uses @Language_extension_steps. destruct (Language_extension s); krun; [|repeat (kenter; krun); over].
  uses @LanguageExtension_iter_steps. over.
Qed.
