(** The rest of normal/, grandfathered.rs and lib.rs, as the source text gives them. *)
From Verif Require Import Base Validate Utils Normal Grandfathered LangTag Derived NoOverflow Newtypes
  RustSyntax RustEval RustProgram RustRefine RustGrammar RustValidate RustNormal RustAccess.
Open Scope string_scope.
Open Scope nat_scope.
Open Scope list_scope.

(** * 1. Extension, Extensions, Variants *)

Lemma Extension_singleton_src {M} n s :
  30 <= n ->
  call M crate n (VPath ["Extension"; "singleton"]) [vtag ExtensionT s] = lift vsingleton (Extension_singleton s).
Proof.
  intro Hn. fuel n 30. enter. run. unfold Extension_singleton, lift.
  destruct (index s 0); [|reflexivity|reflexivity]. run. reflexivity.
Qed.

(** The constants [EMPTY]. *)
Lemma EMPTY_src {M} n e :
  20 <= n ->
  eval M crate n e (EPath ["Variants"; "EMPTY"]) = Ret (e, Done (vtag VariantsT Variants_EMPTY)) /\
  eval M crate n e (EPath ["Extensions"; "EMPTY"]) = Ret (e, Done (vtag ExtensionsT Extensions_EMPTY)).
Proof. intro Hn. fuel n 20. split; run; reflexivity. Qed.

Lemma Variants_first_src {M} n s :
  160 + length s <= n -> length s + 4 <= M ->
  call M crate n (VPath ["Variants"; "first"]) [vtag VariantsT s] = lift (voption (vtag VariantT)) (Variants_first s).
Proof.
  intros Hn HM. fuel n 40. enter. run. rewrite Variants_iter_src by lia. run.
  rewrite VariantsIter_next_src by (cbn; lia). unfold lift_step, lift, Variants_first.
  destruct (VariantsIter_next (Variants_iter s)) as [[]| |]; run; reflexivity.
Qed.
Lemma Variants_last_src {M} n s :
  160 + length s <= n -> length s + 4 <= M ->
  call M crate n (VPath ["Variants"; "last"]) [vtag VariantsT s] = lift (voption (vtag VariantT)) (Variants_last s).
Proof.
  intros Hn HM. fuel n 40. enter. run. rewrite Variants_iter_src by lia. run.
  rewrite VariantsIter_next_back_src by (cbn; lia). unfold lift_step, lift, Variants_last.
  destruct (VariantsIter_next_back (Variants_iter s)) as [[]| |]; run; reflexivity.
Qed.

Lemma Extensions_get_src {M} n s c :
  200 + 2 * length s <= n -> length s + 4 <= M ->
  call M crate n (VPath ["Extensions"; "get"]) [vtag ExtensionsT s; vsingleton c] =
  lift (voption (vtag ExtensionT)) (Extensions_get s c).
Proof.
  intros Hn HM. fuel n 50. enter. run. unfold Extensions_get, lift. rewrite finish.
  match goal with
  | |- context [andthen (eval M crate _ (_ :: _ :: ?e) (EWhile ?w ?b)) ?k] =>
    assert (forall g i st n, 140 + length s + g <= n -> length s - i <= g -> i <= length s ->
      ends (andthen (eval M crate n (("starting", VBool st) :: ("i", VNat i) :: e) (EWhile w b)) k) =
      omap (fun v => Some (voption (vtag ExtensionT) v)) (Extensions_get_loop g s c i st)) as L
  end.
  { induction g as [|g IH]; intros i st n Hn' Hg Hi; fuel n 40; cbn [Extensions_get_loop]; unroll.
    - destruct (i + 1 <? length s) eqn:E; [apply Nat.ltb_lt in E; lia|]. run. reflexivity.
    - destruct (i + 1 <? length s) eqn:E; run; [|reflexivity].
      destruct st; run.
      + destruct (index s i) as [b| |] eqn:?; [|reflexivity|reflexivity]. run.
        destruct (beq b c); run.
        * destruct (index s (i + 1)) as [b'| |] eqn:?; [|reflexivity|reflexivity]. run.
          destruct (beq b' dash) eqn:B; unfold dash in B; rewrite B; run.
          -- erewrite (find_list_end_src _ s (i + 2) _ (fun _ segment => Ret (1 <? length segment)) 20).
             ++ unfold lift. destruct (find_list_end s (i + 2) _) as [x| |] eqn:?; run; [|reflexivity|reflexivity].
                destruct (slice s i x); [|reflexivity|reflexivity]. run. reflexivity.
             ++ intros k o sub Hk Hs. fuel k 20. enter. run. reflexivity.
             ++ reflexivity.
             ++ lia.
             ++ lia.
          -- apply IH; apply Nat.ltb_lt in E; lia.
        * apply IH; apply Nat.ltb_lt in E; lia.
      + destruct (index s i) as [b| |] eqn:?; [|reflexivity|reflexivity]. run.
        destruct (beq b dash) eqn:B; unfold dash in B; rewrite B; run; apply IH; apply Nat.ltb_lt in E; lia. }
  rewrite (L (length s)) by lia. now destruct (Extensions_get_loop (length s) s c 0 true).
Qed.

Lemma Extensions_iter_extension_src {M} n s c :
  240 + 2 * length s <= n -> length s + 4 <= M ->
  call M crate n (VPath ["Extensions"; "iter_extension"]) [vtag ExtensionsT s; vsingleton c] =
  lift (viter_of "ExtensionIter") (Extensions_iter_extension s c).
Proof.
  intros Hn HM. fuel n 30. enter. run. rewrite Extensions_get_src by lia. unfold Extensions_iter_extension, lift.
  destruct (Extensions_get s c) as [[e|]| |]; run; reflexivity.
Qed.

(** * 2. Language *)

Lemma split_at_dash s : split_at dash s = split_once s.
Proof. induction s as [|b s IH]; [reflexivity|]. cbn [split_at split_once]. destruct (beq b dash); [reflexivity|]. now rewrite IH. Qed.

Lemma Language_primary_src {M} n s :
  30 <= n ->
  call M crate n (VPath ["Language"; "primary"]) [vtag LanguageT s] = Ret (vtag PrimaryLanguageT (Language_primary s), []).
Proof.
  intro Hn. fuel n 30. enter. run. change (u8_of 45) with (Some dash). tidy. rewrite split_at_dash. unfold Language_primary.
  destruct (split_once s) as [[]|]; run; reflexivity.
Qed.
Lemma Language_extension_src {M} n s :
  40 <= n ->
  call M crate n (VPath ["Language"; "extension"]) [vtag LanguageT s] =
  Ret (voption (vtag LanguageExtensionT) (Language_extension s), []).
Proof.
  intro Hn. fuel n 40. enter. run. change (u8_of 45) with (Some dash). tidy. rewrite split_at_dash. unfold Language_extension.
  destruct (split_once s) as [[]|]; run; reflexivity.
Qed.
Lemma Language_extension_subtags_src {M} n s :
  80 <= n ->
  call M crate n (VPath ["Language"; "extension_subtags"]) [vtag LanguageT s] =
  Ret (viter_of "LanguageExtensionIter" (Language_extension_subtags s), []).
Proof.
  intro Hn. fuel n 40. enter. run. rewrite Language_extension_src by lia. unfold Language_extension_subtags.
  destruct (Language_extension s); run; [|reflexivity]. rewrite LanguageExtension_iter_src by lia. run. reflexivity.
Qed.

Lemma NormalLangTag_private_use_subtags_src {M} n s :
  440 + 2 * length s <= n -> length s + 4 <= M ->
  call M crate n (VPath ["NormalLangTag"; "private_use_subtags"]) [vtag NormalLangTagT s] =
  lift (viter_of "PrivateUseIter") (NormalLangTag_private_use_subtags s).
Proof.
  intros Hn HM. fuel n 30. enter. run. rewrite NormalLangTag_private_use_src by lia.
  unfold NormalLangTag_private_use_subtags, lift.
  destruct (NormalLangTag_private_use s) as [[p|]| |]; run; reflexivity.
Qed.

(** * 3. GrandfatheredLangTag *)

Definition grandfathered_name (g : grandfathered) : string :=
  match g with
  | EnGbOed => "EnGbOed" | IAmi => "IAmi" | IBnn => "IBnn" | IDefault => "IDefault" | IEnochian => "IEnochian"
  | IHak => "IHak" | IKlingon => "IKlingon" | ILux => "ILux" | IMingo => "IMingo" | INavajo => "INavajo"
  | IPwn => "IPwn" | ITao => "ITao" | ITay => "ITay" | ITsu => "ITsu" | SgnBeFr => "SgnBeFr" | SgnBeNl => "SgnBeNl"
  | SgnChDe => "SgnChDe" | ArtLojban => "ArtLojban" | CelGaulish => "CelGaulish" | NoBok => "NoBok" | NoNyn => "NoNyn"
  | ZhGuoyu => "ZhGuoyu" | ZhHakka => "ZhHakka" | ZhMin => "ZhMin" | ZhMinNan => "ZhMinNan" | ZhXiang => "ZhXiang"
  end.
Definition vgrandfathered (g : grandfathered) : value := VEnum "GrandfatheredLangTag" (grandfathered_name g) [].

(** The variants of the enum, in order: a derived implementation uses these positions. *)
Lemma grandfathered_enum :
  find_enum (enums crate) "GrandfatheredLangTag" = Some (map (fun g => (grandfathered_name g, 0)) GRANDFATHERED) /\
  forall g, nth_error GRANDFATHERED (N.to_nat (Grandfathered_discriminant g)) = Some g.
Proof. split; [vm_compute; reflexivity|]. destruct g; reflexivity. Qed.

Lemma grandfathered_resolves g :
  resolve crate [grandfathered_name g] = TgVariant "GrandfatheredLangTag" (grandfathered_name g) 0.
Proof. destruct g; vm_compute; reflexivity. Qed.
Lemma grandfathered_args {M} m x : forall l k,
  eval_args (eval M crate (1 + m)) [("Self", VTy x)] (map (fun g => EPath [grandfathered_name g]) l) k =
  k [("Self", VTy x)] (map vgrandfathered l).
Proof.
  induction l as [|g l IH]; intro k; [reflexivity|]. cbn [map eval_args]. rewrite (eval_eq 0 m). cbn [eval_step].
  assert (eval_path crate (eval M crate (0 + m)) [("Self", VTy x)] [grandfathered_name g] =
    done [("Self", VTy x)] (vgrandfathered g)) as ->.
  { unfold eval_path. replace (lookup (grandfathered_name g) [("Self", VTy x)]) with (@None value) by now destruct g.
    replace (self_path [("Self", VTy x)] [grandfathered_name g]) with [grandfathered_name g] by now destruct g.
    now rewrite grandfathered_resolves. }
  unfold done, andthen. cbn [bind snd fst]. apply IH.
Qed.
Definition grandfathered_array : expr :=
  Eval vm_compute in match resolve crate ["GRANDFATHERED"] with TgConst _ x => x | _ => EBool false end.
Lemma GRANDFATHERED_src {M} n e :
  20 <= n -> lookup "GRANDFATHERED" e = None ->
  eval M crate n e (EPath ["GRANDFATHERED"]) = Ret (e, Done (VList (map vgrandfathered GRANDFATHERED))).
Proof.
  intros Hn He. fuel n 20. rewrite eval_eq. cbn [eval_step]. unfold eval_path. rewrite He.
  assert (self_path e ["GRANDFATHERED"] = ["GRANDFATHERED"]) as -> by reflexivity.
  replace (resolve crate ["GRANDFATHERED"]) with (TgConst "" grandfathered_array) by (vm_compute; reflexivity).
  rewrite eval_eq. unfold grandfathered_array. cbn [eval_step].
  match goal with |- context [eval_args _ _ ?l _] =>
    change l with (map (fun g => EPath [grandfathered_name g]) GRANDFATHERED) end.
  rewrite (grandfathered_args (17 + m)). reflexivity.
Qed.

Lemma Grandfathered_as_bytes_src {M} n g :
  20 <= n ->
  call M crate n (VPath ["GrandfatheredLangTag"; "as_bytes"]) [vgrandfathered g] = Ret (VBytes (Grandfathered_as_bytes g), []).
Proof. intro Hn. fuel n 20. unfold vgrandfathered. destruct g; cbn [grandfathered_name]; enter; run; reflexivity. Qed.
Lemma Grandfathered_language_src {M} n g :
  20 <= n ->
  call M crate n (VPath ["GrandfatheredLangTag"; "language"]) [vgrandfathered g] =
  Ret (voption (vtag LanguageT) (Grandfathered_language g), []).
Proof. intro Hn. fuel n 20. unfold vgrandfathered. destruct g; cbn [grandfathered_name]; enter; run; reflexivity. Qed.
Lemma Grandfathered_as_str_src {M} n g :
  40 <= n ->
  call M crate n (VPath ["GrandfatheredLangTag"; "as_str"]) [vgrandfathered g] = Ret (VStr (Grandfathered_as_str g), []).
Proof. intro Hn. fuel n 20. enter. run.
  rewrite Grandfathered_as_bytes_src by lia. run. reflexivity.
Qed.
Lemma Grandfathered_display_src {M} n g l :
  60 <= n ->
  call M crate n (VPath ["GrandfatheredLangTag"; "as"; "Display"; ""; "fmt"]) [vgrandfathered g; VSink l] =
  Ret (okv VUnit, [VSink (l ++ Grandfathered_as_str g)]).
Proof.
  intro Hn. fuel n 20. enter. run.
  rewrite Grandfathered_as_str_src by lia. run. reflexivity.
Qed.
