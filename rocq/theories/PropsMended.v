(** Property C72: the text of normal/mod.rs with a patch of two lines has the accessors that C10-C17 ask for, and every
    function that returned before returns the same. *)
From Verif Require Import Base GrammarRs Validate Utils Grandfathered Normal LangTag Newtypes Derived Spec Observe
  Grammar Abnf AbnfText AbnfEquiv Accept Case Parse Access Iter Kind Parts Values Repair Samples PropsAccess.
From Verif Require Import RustText RustSyntax RustEval RustProgram RustRefine RustGrammar RustValidate RustNormal RustAccess
  RustTags RustLib RustSays RustOracle RustGenerated RustMended RustMendedAccess PropsSource.
Import Base.

Lemma mended_at f args r N :
  (forall M n, rooms args <= M -> N <= n -> call M mended n (VPath f) args = r) -> runs_mended f args r.
Proof. intros H. exists mended. split; [exact mended_is_the_text|]. intros M _ L. exists N. intros n. now apply H. Qed.
Lemma mended_inv f args r : runs_mended f args r ->
  forall M, 64 <= M -> rooms args <= M -> exists N, forall n, N <= n -> call M mended n (VPath f) args = r.
Proof. intros (P & L & H). rewrite mended_is_the_text in L. injection L as <-. exact H. Qed.
Lemma mended_keeps f args r : runs f args r -> apart_call f args = true -> runs_mended f args r.
Proof.
  intros H A. exists mended. split; [exact mended_is_the_text|]. intros M L R.
  destruct (runs_inv _ _ _ H M L R) as (N & X). exists N. intros n K. rewrite mended_same by exact A. now apply X.
Qed.

(** * 1. What returned returns the same *)

Lemma refined_ret {A B} (f : A -> B) x y : refined x y -> refined (omap f x) (omap f y).
Proof. intros H. apply refined_bind; [exact H|]. intros. apply refined_refl. Qed.
Lemma guarded_get_refined g s c : forall i st, refined (Extensions_get_loop g s c i st) (guarded_Extensions_get_loop g s c i st).
Proof.
  induction g as [|g IH]; intros i st; cbn [Extensions_get_loop guarded_Extensions_get_loop];
    destruct (i + 1 <? length s); try apply refined_refl.
  apply refined_bind; [apply refined_refl|]. intros b. destruct st; [|apply IH].
  apply refined_bind; [apply refined_refl|]. intros [|]; [|apply IH].
  apply refined_bind; [apply guarded_refined|]. intros. apply refined_refl.
Qed.
Lemma guarded_next_refined it : refined (ExtensionsIter_next it) (guarded_ExtensionsIter_next it).
Proof.
  unfold ExtensionsIter_next, guarded_ExtensionsIter_next. destruct (it_offset it <? _); [|apply refined_refl].
  apply refined_bind; [apply guarded_refined|]. intros. apply refined_refl.
Qed.
Lemma guarded_LangTag_refined s :
  refined (LangTag_language s) (guarded_LangTag_language s) /\ refined (LangTag_script s) (guarded_LangTag_script s) /\
  refined (LangTag_region s) (guarded_LangTag_region s) /\ refined (LangTag_variants s) (guarded_LangTag_variants s) /\
  refined (LangTag_extensions s) (guarded_LangTag_extensions s).
Proof.
  repeat split; (apply refined_bind; [apply refined_refl|]).
  - intros [t|]; [apply refined_ret, repaired_refines|apply refined_refl].
  - intros [t|]; [apply repaired_refines|apply refined_refl].
  - intros [t|]; [apply repaired_refines|apply refined_refl].
  - intros [t|]; [apply repaired_refines|apply refined_refl].
  - intros [t|]; [apply repaired_refines|apply refined_refl].
Qed.
Lemma guarded_Typed_refined t : refined (Typed_language t) (guarded_Typed_language t).
Proof. destruct t; [apply refined_ret, repaired_refines|apply refined_refl..]. Qed.

Lemma by_lift {A} f args (V : A -> value) a b x N : lift V a = Ret x -> refined a b ->
  (forall M n, rooms args <= M -> N <= n -> call M mended n (VPath f) args = lift V b) -> runs_mended f args (Ret x).
Proof.
  intros E R H. destruct a as [y| |]; try discriminate E. rewrite (R y eq_refl) in H. cbn in E, H. rewrite E in H.
  exact (mended_at _ _ _ N H).
Qed.
Lemma by_step {A B} f args (V : A -> value) (W : B -> value) a b x N : lift_step V W a = Ret x -> refined a b ->
  (forall M n, rooms args <= M -> N <= n -> call M mended n (VPath f) args = lift_step V W b) -> runs_mended f args (Ret x).
Proof.
  intros E R H. destruct a as [y| |]; try discriminate E. rewrite (R y eq_refl) in H. cbn in E, H. rewrite E in H.
  exact (mended_at _ _ _ N H).
Qed.
Ltac with_fuel := intros M n F L.
Ltac room := match goal with F : rooms _ <= _ |- _ => cbn in F; lia end.

(** The functions of which the patch changes the results. *)
Definition about_private (f : list string) : Prop :=
  f = ["NormalLangTag"; "private_use_offset"] \/ f = ["NormalLangTag"; "private_use"] \/
  f = ["NormalLangTag"; "private_use_subtags"] \/ f = ["LangTag"; "private_use"] \/ f = ["LangTag"; "private_use_subtags"].

Lemma conservative f args x : says f args (Ret x) -> f <> ["find_list_end"] -> ~ about_private f -> runs_mended f args (Ret x).
Proof.
  intros H F A. remember (Ret x) as r eqn:E.
  assert (K : apart_call f args = true -> runs_mended f args r) by (intros; now apply mended_keeps; [apply says_runs|]).
  destruct H;
    try (apply K; clear;
         repeat match goal with
         | ty : newtype |- _ => destruct ty
         | t : typed |- _ => destruct t
         | k : kind |- _ => destruct k
         | g : grandfathered |- _ => destruct g
         end; reflexivity);
    try (apply K; match goal with W : _ \/ _ |- _ => destruct W as [-> | ->]; reflexivity end);
    try (now destruct F); try (exfalso; apply A; unfold about_private; tauto); clear K F A.
  - rewrite E. apply (by_lift _ _ _ _ _ _ (2000 + 2 * length s) E (proj1 (guarded_LangTag_refined s))); with_fuel; apply (@LangTag_language_mended M n s); [lia|room].
  - rewrite E. apply (by_lift _ _ _ _ _ _ (2000 + 2 * length s) E (proj1 (proj2 (guarded_LangTag_refined s)))); with_fuel; apply (@LangTag_script_mended M n s); [lia|room].
  - rewrite E. apply (by_lift _ _ _ _ _ _ (2000 + 2 * length s) E (proj1 (proj2 (proj2 (guarded_LangTag_refined s))))); with_fuel; apply (@LangTag_region_mended M n s); [lia|room].
  - rewrite E. apply (by_lift _ _ _ _ _ _ (2000 + 2 * length s) E (proj1 (proj2 (proj2 (proj2 (guarded_LangTag_refined s)))))); with_fuel; apply (@LangTag_variants_mended M n s); [lia|room].
  - rewrite E. apply (by_lift _ _ _ _ _ _ (2000 + 2 * length s) E (proj2 (proj2 (proj2 (proj2 (guarded_LangTag_refined s)))))); with_fuel; apply (@LangTag_extensions_mended M n s); [lia|room].
  - rewrite E. apply (by_lift _ _ _ _ _ _ (2000 + 2 * length (match t with TNormal s => s | _ => [] end)) E (guarded_Typed_refined t));
      with_fuel; apply (@Typed_language_mended M n t); [lia|destruct t; [room|exact I..]].
  - apply (mended_at _ _ _ 20). with_fuel. now apply (@Grandfathered_language_mended M n g).
  - rewrite E. apply (by_lift _ _ _ _ _ _ (2000 + 2 * length s) E (language_end_refined s)); with_fuel; apply (@language_end_mended M n s); [lia|room].
  - rewrite E. apply (by_lift _ _ _ _ _ _ (2000 + 2 * length s) E (script_range_refined s)); with_fuel; apply (@script_range_mended M n s); [lia|room].
  - rewrite E. apply (by_lift _ _ _ _ _ _ (2000 + 2 * length s) E (region_range_refined s)); with_fuel; apply (@region_range_mended M n s); [lia|room].
  - rewrite E. apply (by_lift _ _ _ _ _ _ (2000 + 2 * length s) E (variants_range_refined s)); with_fuel; apply (@variants_range_mended M n s); [lia|room].
  - rewrite E. apply (by_lift _ _ _ _ _ _ (2000 + 2 * length s) E (extensions_range_refined s)); with_fuel; apply (@extensions_range_mended M n s); [lia|room].
  - rewrite E. apply (by_lift _ _ _ _ _ _ (2000 + 2 * length s) E (proj1 (repaired_refines s))); with_fuel; apply (@NormalLangTag_language_mended M n s); [lia|room].
  - rewrite E. apply (by_lift _ _ _ _ _ _ (2000 + 2 * length s) E (proj1 (proj2 (repaired_refines s)))); with_fuel; apply (@NormalLangTag_script_mended M n s); [lia|room].
  - rewrite E. apply (by_lift _ _ _ _ _ _ (2000 + 2 * length s) E (proj1 (proj2 (proj2 (repaired_refines s))))); with_fuel; apply (@NormalLangTag_region_mended M n s); [lia|room].
  - rewrite E. apply (by_lift _ _ _ _ _ _ (2000 + 2 * length s) E (proj1 (proj2 (proj2 (proj2 (repaired_refines s)))))); with_fuel; apply (@NormalLangTag_variants_mended M n s); [lia|room].
  - rewrite E. apply (by_lift _ _ _ _ _ _ (2000 + 2 * length s) E (proj2 (proj2 (proj2 (proj2 (repaired_refines s)))))); with_fuel; apply (@NormalLangTag_extensions_mended M n s); [lia|room].
  - rewrite E. apply (by_lift _ _ _ _ _ _ (2000 + 2 * length s) E (refined_refl _)); with_fuel; apply (@Singleton_from_string_mended M n s); lia.
  - rewrite E. apply (by_lift _ _ _ _ _ _ (2000 + 2 * length s) E (refined_refl _)); with_fuel; apply (@Singleton_from_str_mended M n s); lia.
  - rewrite E. apply (by_step _ _ _ _ _ _ _ (2000 + 2 * length (it_data it)) E (refined_refl _)); with_fuel; apply (@PrivateUseIter_next_mended M n it); [lia|room].
  - rewrite E. apply (by_step _ _ _ _ _ _ _ (2000 + 2 * length (it_data it)) E (refined_refl _)); with_fuel; apply (@ExtensionIter_next_mended M n it); [lia|room].
  - rewrite E. apply (by_step _ _ _ _ _ _ _ (2000 + 2 * length (it_data it)) E (refined_refl _)); with_fuel; apply (@LanguageExtensionIter_next_mended M n it); [lia|room].
  - rewrite E. apply (by_step _ _ _ _ _ _ _ (2000 + 2 * length (it_data it)) E (guarded_next_refined it)); with_fuel; apply (@ExtensionsIter_next_mended M n it); [lia|room].
  - rewrite E. apply (by_step _ _ _ _ _ _ _ (2000 + 2 * length (v_data it)) E (refined_refl _)); with_fuel; apply (@VariantsIter_next_mended M n it); [lia|room].
  - rewrite E. apply (by_lift _ _ _ _ _ _ (2000 + 2 * length s) E (refined_refl _)); with_fuel; apply (@Variants_first_mended M n s); [lia|room].
  - rewrite E. apply (by_lift _ _ _ _ _ _ (2000 + 2 * length s) E (guarded_get_refined _ s c 0 true)); with_fuel; apply (@Extensions_get_mended M n s c); [lia|room].
  - rewrite E. apply (by_lift _ _ _ _ _ _ (2000 + 2 * length s) E (refined_bind _ _ _ _ (guarded_get_refined _ s c 0 true) (fun _ => refined_refl _))); with_fuel; apply (@Extensions_iter_extension_mended M n s c); [lia|room].
Qed.

(** * 2. C72 *)

(** What is before the first [old], in a text that has one. *)
Fixpoint before (old s : bytes) : bytes :=
  match after old s with
  | Some _ => []
  | None => match s with b :: s' => b :: before old s' | [] => [] end
  end.
Fixpoint same_bytes (a b : bytes) : bool :=
  match a, b with
  | [], [] => true
  | x :: a', y :: b' => if beq x y then same_bytes a' b' else false
  | _, _ => false
  end.
Lemma same_bytes_eq a : forall b, same_bytes a b = true -> a = b.
Proof.
  induction a as [|x a IH]; intros [|y b] H; try discriminate H; [reflexivity|]. cbn [same_bytes] in H.
  destruct (beq x y) eqn:E; [|discriminate H]. apply beq_true in E as ->. now rewrite (IH b H).
Qed.
(** Two lines of normal/mod.rs are changed, the other files are as they are. *)
Theorem C72_patch :
  (exists a b c, normal_mod_rs = a ++ private_old ++ b ++ scan_old ++ c /\
                 mended_mod_rs = a ++ private_new ++ b ++ scan_new ++ c) /\
  (exists l l', files = l ++ ("", normal_mod_rs) :: l' /\ mended_files = l ++ ("", mended_mod_rs) :: l').
Proof.
  split.
  - exists (before private_old normal_mod_rs),
      (before scan_old (skipn (length (before private_old normal_mod_rs) + length private_old) normal_mod_rs)),
      (skipn (length (before scan_old normal_mod_rs) + length scan_old) normal_mod_rs).
    split; apply same_bytes_eq; vm_cast_no_check (eq_refl true).
  - exists (firstn 4 files), (skipn 5 files). split; reflexivity.
Qed.

(** Calls that do not involve the functions that may call one of the two run alike, step for step. *)
Theorem C72_same : (exists P P', load files (Program [] [] [] [] []) = Some P /\ load mended_files (Program [] [] [] [] []) = Some P' /\
    forall M n f args, apart_call f args = true -> call M P' n (VPath f) args = call M P n (VPath f) args) /\
  forall f args r, apart_call f args = true -> (runs f args r <-> runs_mended f args r).
Proof.
  split.
  - exists crate, mended. split; [exact crate_is_the_source|]. split; [exact mended_is_the_text|]. intros. now apply mended_same.
  - intros f args r A. split; [intros H; now apply mended_keeps|]. intros H. exists crate. split; [exact crate_is_the_source|].
    intros M L R. destruct (mended_inv _ _ _ H M L R) as (N & X). exists N. intros n K. rewrite <- mended_same by exact A. now apply X.
Qed.

(** A function that returns, returns the same after the patch; except for private use subtags. *)
Theorem C72_conservative : forall f args x, says f args (Ret x) -> f <> ["find_list_end"] -> ~ about_private f ->
  runs f args (Ret x) /\ runs_mended f args (Ret x).
Proof. intros f args x H F A. split; [now apply says_runs|now apply conservative]. Qed.

(** Successive calls of [next], on the patched text. *)
Fixpoint mended_calls (f : list string) (k : nat) (it : value) (l : list value) : Prop :=
  match k, l with
  | S k, v :: l' => exists it', runs_mended f [it] (Ret (v, [it'])) /\ mended_calls f k it' l'
  | O, [] => True
  | _, _ => False
  end.
Lemma mended_calls_next {I} f (vi : I -> value) w next :
  (forall it x, next it = Ret x -> runs_mended f [vi it] (lift_step (voption w) vi (Ret x))) ->
  forall k it l, calls next k it = Ret l -> mended_calls f k (vi it) (map (voption w) l).
Proof.
  intros H k. induction k as [|k IH]; intros it l C.
  - injection C as <-. exact Logic.I.
  - cbn [calls] in C. specialize (H it). destruct (next it) as [[o it']| |]; try discriminate C. cbn [bind fst snd] in C.
    destruct (calls next k it') as [rs| |] eqn:E; try discriminate C. injection C as <-.
    exists (vi it'). split; [exact (H _ eq_refl)|]. apply IH, E.
Qed.

Lemma private_next it x : PrivateUseIter_next it = Ret x ->
  runs_mended ["PrivateUseIter"; "next"] [viter_of "PrivateUseIter" it]
    (lift_step (voption (vtag PrivateUseSubtagT)) (viter_of "PrivateUseIter") (Ret x)).
Proof.
  intros X. apply (conservative _ _ (voption (vtag PrivateUseSubtagT) (fst x), [viter_of "PrivateUseIter" (snd x)])).
  - pose proof (says_PrivateUseIter_next it) as H. rewrite X in H. exact H.
  - discriminate.
  - unfold about_private. intros [H|[H|[H|[H|H]]]]; discriminate.
Qed.
Lemma guarded_LangTag_normal s t : is_tag s t ->
  guarded_LangTag_language s = omap Some (guarded_language s) /\
  guarded_LangTag_script s = guarded_script s /\ guarded_LangTag_region s = guarded_region s /\
  guarded_LangTag_variants s = guarded_variants s /\ guarded_LangTag_extensions s = guarded_extensions s /\
  guarded_LangTag_private_use s = guarded_private_use s /\
  guarded_LangTag_private_use_subtags s = guarded_private_use_subtags s.
Proof.
  intros H. apply is_tag_accepts in H.
  unfold guarded_LangTag_language, guarded_LangTag_script, guarded_LangTag_region, guarded_LangTag_variants,
    guarded_LangTag_extensions, guarded_LangTag_private_use_subtags, guarded_private_use_subtags, guarded_LangTag_private_use.
  rewrite new_langtag, as_normal_eq, H. cbn [bind and_then]. repeat split.
Qed.
Lemma guarded_spec s t : is_tag s t ->
  guarded_language s = Ret (language_text (t_language t)) /\ guarded_script s = Ret (t_script t) /\
  guarded_region s = Ret (t_region t) /\ guarded_variants s = Ret (join (t_variants t)) /\
  guarded_extensions s = Ret (extensions_text (t_extensions t)) /\
  guarded_private_use s = Ret (option_map private_text (t_private t)).
Proof.
  intros [O ->]. destruct (guarded_repaired (tag_text t)) as (-> & -> & -> & -> & -> & ->).
  rewrite (repaired_language_spec t O), (repaired_script_spec t O), (repaired_region_spec t O),
    (repaired_variants_spec t O), (repaired_extensions_spec t O), (repaired_private_use_spec t O). repeat split.
Qed.


(** The accessors of the patched text give the components, whatever the tag ends with. *)
Theorem C72_accessors : forall s t ty, is_tag s t -> ty = NormalLangTagT \/ ty = LangTagT ->
  runs_mended ["NormalLangTag"; "language"] [vtag NormalLangTagT s] (Ret (vtag LanguageT (language_text (t_language t)), [])) /\
  runs_mended ["LangTag"; "language"] [vtag LangTagT s] (Ret (some (vtag LanguageT (language_text (t_language t))), [])) /\
  runs_mended [type_of ty; "script"] [vtag ty s] (Ret (voption (vtag ScriptT) (t_script t), [])) /\
  runs_mended [type_of ty; "region"] [vtag ty s] (Ret (voption (vtag RegionT) (t_region t), [])) /\
  runs_mended [type_of ty; "variants"] [vtag ty s] (Ret (vtag VariantsT (join (t_variants t)), [])) /\
  runs_mended [type_of ty; "extensions"] [vtag ty s] (Ret (vtag ExtensionsT (extensions_text (t_extensions t)), [])) /\
  runs_mended [type_of ty; "private_use"] [vtag ty s]
    (Ret (voption (vtag PrivateUseT) (option_map private_text (t_private t)), [])) /\
  exists it, runs_mended [type_of ty; "private_use_subtags"] [vtag ty s] (Ret (it, [])) /\ forall k,
    mended_calls ["PrivateUseIter"; "next"] k it
      (map (voption (vtag PrivateUseSubtagT)) (expected_next k (match t_private t with Some p => p_subtags p | None => [] end))).
Proof.
  intros s t ty T Y. destruct (guarded_LangTag_normal s t T) as (E1 & E2 & E3 & E4 & E5 & E6 & E7).
  destruct (guarded_spec s t T) as (S1 & S2 & S3 & S4 & S5 & S6).
  assert (A : forall {A} f args (V : A -> value) (y : outcome A) z N, y = Ret z ->
    (forall M n, rooms args <= M -> N <= n -> call M mended n (VPath f) args = lift V y) -> runs_mended f args (Ret (V z, []))).
  { intros X f args V y z N -> H. exact (mended_at _ _ _ N H). }
  assert (W : exists it, guarded_private_use_subtags s = Ret it /\ forall k,
    mended_calls ["PrivateUseIter"; "next"] k (viter_of "PrivateUseIter" it)
      (map (voption (vtag PrivateUseSubtagT)) (expected_next k (match t_private t with Some p => p_subtags p | None => [] end)))).
  { unfold guarded_private_use_subtags. rewrite S6. cbn [bind].
    destruct (t_private t) as [p|] eqn:P; (eexists; split; [reflexivity|]); intros k; apply (mended_calls_next _ _ _ _ private_next);
      rewrite PrivateUseIter_next_eq; apply segment_calls.
    - apply PrivateUse_iter_spec. destruct T as [O _]. apply tag_ok_parts in O as (_ & _ & _ & _ & _ & O).
      rewrite P in O. exact O.
    - apply iter_default_at. }
  split; [|split]; [|rewrite S1 in E1|].
  - apply (A _ _ _ _ _ _ (3000 + 2 * length s) S1). with_fuel. apply NormalLangTag_language_mended; [lia|room].
  - apply (A _ _ _ (voption (vtag LanguageT)) _ _ (3000 + 2 * length s) E1). with_fuel. apply LangTag_language_mended; [lia|room].
  - destruct Y as [-> | ->]; cbn [type_of].
    + split; [apply (A _ _ _ _ _ _ (3000 + 2 * length s) S2); with_fuel; apply NormalLangTag_script_mended; [lia|room]|].
      split; [apply (A _ _ _ _ _ _ (3000 + 2 * length s) S3); with_fuel; apply NormalLangTag_region_mended; [lia|room]|].
      split; [apply (A _ _ _ _ _ _ (3000 + 2 * length s) S4); with_fuel; apply NormalLangTag_variants_mended; [lia|room]|].
      split; [apply (A _ _ _ _ _ _ (3000 + 2 * length s) S5); with_fuel; apply NormalLangTag_extensions_mended; [lia|room]|].
      split; [apply (A _ _ _ _ _ _ (3000 + 2 * length s) S6); with_fuel; apply NormalLangTag_private_use_mended; [lia|room]|].
      destruct W as (it & I & W). exists (viter_of "PrivateUseIter" it). split; [|exact W].
      apply (A _ _ _ _ _ _ (3000 + 2 * length s) I); with_fuel; apply NormalLangTag_private_use_subtags_mended; [lia|room].
    + rewrite <- E2 in S2. rewrite <- E3 in S3. rewrite <- E4 in S4. rewrite <- E5 in S5. rewrite <- E6 in S6.
      split; [apply (A _ _ _ _ _ _ (3000 + 2 * length s) S2); with_fuel; apply LangTag_script_mended; [lia|room]|].
      split; [apply (A _ _ _ _ _ _ (3000 + 2 * length s) S3); with_fuel; apply LangTag_region_mended; [lia|room]|].
      split; [apply (A _ _ _ _ _ _ (3000 + 2 * length s) S4); with_fuel; apply LangTag_variants_mended; [lia|room]|].
      split; [apply (A _ _ _ _ _ _ (3000 + 2 * length s) S5); with_fuel; apply LangTag_extensions_mended; [lia|room]|].
      split; [apply (A _ _ _ _ _ _ (3000 + 2 * length s) S6); with_fuel; apply LangTag_private_use_mended; [lia|room]|].
      destruct W as (it & I & W). exists (viter_of "PrivateUseIter" it). split; [|exact W]. rewrite <- E7 in I.
      apply (A _ _ _ _ _ _ (3000 + 2 * length s) I); with_fuel; apply LangTag_private_use_subtags_mended; [lia|room].
Qed.
(** On the other tags they give nothing, as before. *)
Theorem C72_not_normal : forall s, not_normal s ->
  runs_mended ["LangTag"; "language"] [vtag LangTagT s] (Ret (none, [])) /\
  runs_mended ["LangTag"; "script"] [vtag LangTagT s] (Ret (none, [])) /\
  runs_mended ["LangTag"; "region"] [vtag LangTagT s] (Ret (none, [])) /\
  runs_mended ["LangTag"; "variants"] [vtag LangTagT s] (Ret (vtag VariantsT [], [])) /\
  runs_mended ["LangTag"; "extensions"] [vtag LangTagT s] (Ret (vtag ExtensionsT [], [])) /\
  runs_mended ["LangTag"; "private_use"] [vtag LangTagT s] (Ret (none, [])) /\
  exists it, runs_mended ["LangTag"; "private_use_subtags"] [vtag LangTagT s] (Ret (it, [])) /\ forall k,
    mended_calls ["PrivateUseIter"; "next"] k it (map (voption (vtag PrivateUseSubtagT)) (expected_next k [])).
Proof.
  intros s N. destruct (LangTag_not_normal s (not_normal_abnf s N)) as (E1 & E2 & E3 & E4 & E5 & E6 & _).
  assert (G : guarded_LangTag_private_use s = Ret None).
  { unfold guarded_LangTag_private_use. rewrite as_normal_eq, (not_tag_accepts s (not_normal_abnf s N)). reflexivity. }
  assert (A : forall m y x, says ["LangTag"; m] [vtag LangTagT s] y -> y = Ret x -> m <> "private_use" ->
    m <> "private_use_subtags" -> runs_mended ["LangTag"; m] [vtag LangTagT s] (Ret x)).
  { intros m y x H -> P Q. apply conservative; [exact H|discriminate|].
    unfold about_private. intros [X|[X|[X|[X|X]]]]; try discriminate X; injection X as X; contradiction. }
  split; [apply (A _ _ _ (says_LangTag_language s)); [now rewrite E1|discriminate..]|].
  split; [apply (A _ _ _ (says_LangTag_script s)); [now rewrite E2|discriminate..]|].
  split; [apply (A _ _ _ (says_LangTag_region s)); [now rewrite E3|discriminate..]|].
  split; [apply (A _ _ _ (says_LangTag_variants s)); [now rewrite E4|discriminate..]|].
  split; [apply (A _ _ _ (says_LangTag_extensions s)); [now rewrite E5|discriminate..]|].
  split.
  - apply (mended_at _ _ _ (3000 + 2 * length s)). with_fuel. rewrite LangTag_private_use_mended; [now rewrite G|lia|room].
  - exists (viter_of "PrivateUseIter" iter_default). split.
    + apply (mended_at _ _ _ (3000 + 2 * length s)). with_fuel. rewrite LangTag_private_use_subtags_mended; [|lia|room].
      unfold guarded_LangTag_private_use_subtags. rewrite G. reflexivity.
    + intros k. apply (mended_calls_next _ _ _ _ private_next). rewrite PrivateUseIter_next_eq. apply segment_calls, iter_default_at.
Qed.
(** No accessor of [LangTag] panics on a tag that [LangTag::new] accepts. *)
Theorem C72_never_panics : forall s m, derived_from grammar_abnf "Language-Tag" s ->
  In m ["language"; "script"; "region"; "variants"; "extensions"; "private_use"; "private_use_subtags"] ->
  exists x, runs_mended ["LangTag"; m] [vtag LangTagT s] (Ret (x, [])).
Proof.
  intros s m D I. assert (A : accepted LangTagT s).
  { destruct (rules_decided LangTagT s) as [[N _]|[_ X]]; [exact N|]. destruct (X D). }
  clear D. destruct (proj1 (proj2 (proj2 direct_decided)) s) as [[_ (t & T)]|[_ X]].
  - destruct (C72_accessors s t LangTagT T (or_intror eq_refl)) as (_ & R1 & R2 & R3 & R4 & R5 & R6 & it & R7 & _).
    cbn [In] in I. cbn [type_of] in *. decompose [or] I; subst; try contradiction; eexists; eassumption.
  - assert (N : not_normal s) by (split; [exact A|]; intros t T; apply X; exists t; exact T).
    destruct (C72_not_normal s N) as (R1 & R2 & R3 & R4 & R5 & R6 & it & R7 & _).
    cbn [In] in I. decompose [or] I; subst; try contradiction; eexists; eassumption.
Qed.
Print Assumptions C72_patch.
Print Assumptions C72_same.
Print Assumptions C72_conservative.
Print Assumptions C72_accessors.
Print Assumptions C72_not_normal.
Print Assumptions C72_never_panics.
Example C72_case :
  call 1000 crate 900 (VPath ["LangTag"; "script"]) [vtag LangTagT (bs "fr")] = Panic /\
  call 1000 mended 900 (VPath ["LangTag"; "script"]) [vtag LangTagT (bs "fr")] = Ret (none, []) /\
  call 1000 mended 900 (VPath ["LangTag"; "region"]) [vtag LangTagT full_text] = Ret (some (vtag RegionT (bs "IT")), []) /\
  call 1000 crate 900 (VPath ["LangTag"; "private_use"]) [vtag LangTagT ext_text_sample] =
    Ret (some (vtag PrivateUseT (bs "a-ext-b-ext1-ext2")), []) /\
  call 1000 mended 900 (VPath ["LangTag"; "private_use"]) [vtag LangTagT ext_text_sample] = Ret (none, []) /\
  call 1000 mended 900 (VPath ["LangTag"; "private_use"]) [vtag LangTagT full_text] =
    Ret (some (vtag PrivateUseT (bs "x-priv-1")), []).
Proof. repeat split; vm_compute; reflexivity. Qed.
