(** C74: what the functions of the crate cost, counted in steps of the source text. *)
From Verif Require Import Base GrammarRs Validate Utils Grandfathered Normal LangTag Newtypes Derived Spec Observe
  Grammar Direct Accept Case Parse Scan Access Iter Kind Parts Compose Values Order More Abnf AbnfText AbnfEquiv Samples PropsFile PropsAccess.
From Verif Require Import RustText RustSyntax RustEval RustCount RustProgram RustRefine RustGrammar RustValidate RustNormal
  RustAccess RustTags RustLib RustSays RustClient RustMended RustMendedAccess PropsSource PropsMended RustClientSound
  PropsClient RustSteps RustStepsNormal RustStepsLib RustStepsSays RustStepsIter.
Import Base.
Open Scope string_scope.
Open Scope nat_scope.
Open Scope list_scope.

(** Counting changes no result: the counter is beside the interpreter of C59. *)
Theorem C74_counter : forall M P n f args s, kcall M P n f args s = (steps M P n f args + s, call M P n f args).
Proof. exact kcall_call. Qed.

(** Every function of the text, public or not, on every input of its type, takes at most a number of steps linear in the
    longest text among its arguments, whether it returns or panics.  ([find_list_end] calls the closure it is given.) *)
Theorem C74_functions : forall f args r, says f args r -> f <> ["find_list_end"] ->
  swift f args r (3000 * rooms args + 45 * 1000).
Proof. exact says_swift. Qed.

(** Whatever a program that uses the crate calls, with whatever it has got hold of. *)
Theorem C74_public : forall f tys args, offered crate f tys -> Forall2 (has_type crate) tys args ->
  (forall a, In a args -> reached crate runs a) -> exists r, swift f args r (3000 * rooms args + 45 * 1000).
Proof.
  intros f tys args O T R. destruct (call_sound f tys args O T) as (r & H & _).
  - apply Forall_forall. intros a A. now apply reached_sound, R.
  - exists r. apply says_swift; [exact H|]. intros ->. apply offered_not_hidden in O. discriminate O.
Qed.

(** Reading a text, as a tag or as any of its parts, costs at most 100 and 80 per byte. *)
Theorem C74_new : forall ty s,
  (exists r, swift [type_of ty; "new"] [VStr s] r (80 * length s + 100)) /\
  (exists r, swift [type_of ty; "new"] [VBytes s] r (80 * length s + 100)).
Proof.
  intros ty s. split; eexists; apply (swift_crate _ _ _ _ (2000 + 2 * length s)); intros M n F L.
  - exact (proj1 (@new_steps M ty n s ltac:(lia) ltac:(roomy))).
  - exact (proj2 (@new_steps M ty n s ltac:(lia) ltac:(roomy))).
Qed.

(** The length of the text in an item. *)
Definition size_of (v : value) : nat :=
  match v with VEnum "Option" "Some" [VStruct _ [(_, VStr s)]] => length s | _ => 0 end.
Definition iterators : list (string * string) :=
  [("PrivateUseIter", "next"); ("ExtensionIter", "next"); ("LanguageExtensionIter", "next"); ("ExtensionsIter", "next");
   ("VariantsIter", "next"); ("VariantsIter", "next_back")].
Lemma typed_struct x fs vs : assoc x shapes = Some fs -> map fst vs = map fst fs ->
  Forall2 (has_type crate) (map snd fs) (map snd vs) -> has_type crate (TyPath [x] []) (VStruct x vs).
Proof.
  intros E N F. apply in_shapes in E. rewrite <- shapes_eq in E. apply in_map_iff in E as ([[y attrs] fs'] & E & I).
  cbn [fst snd] in E. injection E as -> ->. exact (ht_struct crate x attrs fs vs I N F).
Qed.
Lemma typed_iter x it : In x ["PrivateUseIter"; "ExtensionIter"; "LanguageExtensionIter"; "ExtensionsIter"] ->
  has_type crate (TyPath [x] []) (viter_of x it).
Proof.
  intros I. unfold viter_of.
  apply (typed_struct x [("data", TyRef false (TyPath ["str"] [])); ("offset", TyPath ["usize"] [])]);
    [now repeat destruct I as [<-|I]|reflexivity|repeat constructor].
Qed.
Lemma typed_viter it : has_type crate (TyPath ["VariantsIter"] []) (vviter it).
Proof.
  apply (typed_struct "VariantsIter" [("data", TyRef false (TyPath ["str"] [])); ("offset", TyPath ["usize"] []);
    ("end", TyPath ["usize"] [])]); [reflexivity|reflexivity|repeat constructor].
Qed.
Lemma swift_runs f args r B : swift f args r B -> runs f args r.
Proof.
  intros (P & L & H). exists P. split; [exact L|]. intros M HM R. destruct (H M HM R) as (N & X). exists N.
  intros n Hn. now apply X.
Qed.
Lemma step_of x m v item v' B : In ([x; m], [TyPath [x] []]) api -> has_type crate (TyPath [x] []) v -> reached crate runs v ->
  swift [x; m] [v] (Ret (item, [v'])) B -> has_type crate (TyPath [x] []) v' -> B <= 2000 * size_of item + 2400 ->
  exists item v', swift [x; m] [v] (Ret (item, [v'])) (2000 * size_of item + 2400) /\
    reached crate runs v' /\ has_type crate (TyPath [x] []) v'.
Proof.
  intros A T R S T' L. exists item, v'. split; [|split; [|exact T']].
  - destruct S as (P & E & H). exists P. split; [exact E|]. intros M HM HR. destruct (H M HM HR) as (N & X). exists N.
    intros n Hn. destruct (X n Hn). split; [assumption|lia].
  - apply (reached_mut crate runs [x; m] [TyPath [x] []] [v] item [v'] v'); [now apply offered_crate|auto| |now apply swift_runs in S|now left].
    intros a [<-|[]]. exact R.
Qed.
(** An iterator that a program has got hold of costs, at each call, in proportion to the item it gives and not to the text
    it runs over; so a whole iteration is linear. *)
Theorem C74_iterators : forall x m v, In (x, m) iterators -> has_type crate (TyPath [x] []) v -> reached crate runs v ->
  exists item v', swift [x; m] [v] (Ret (item, [v'])) (2000 * size_of item + 2400) /\
    reached crate runs v' /\ has_type crate (TyPath [x] []) v'.
Proof.
  intros x m v I T R. pose proof (reached_sound v R) as S.
  destruct I as [[= <- <-]|[[= <- <-]|[[= <- <-]|[[= <- <-]|[[= <- <-]|[[= <- <-]|[]]]]]]].
  - destruct (type_iter "PrivateUseIter" v) as (it & ->); [cbn; tauto|exact T|]. apply iter_sound in S as (S & _).
    destruct (S eq_refl) as (l & A). clear S.
    assert (exists r it', PrivateUseIter_next it = Ret (r, it')) as (r & it' & E).
    { destruct l as [|y l]; [destruct (at_segs_nil it A) as (it1 & E & _)|destruct (at_segs_cons it y l A) as (it1 & E & _)]; eauto. }
    eapply step_of; [apply in_api; reflexivity|exact T|exact R| |apply (typed_iter "PrivateUseIter" it'); cbn; tauto|].
    + apply (swift_crate _ _ _ _ (2000 + 2 * length (it_data it))). intros M n F L.
      apply (PrivateUseIter_next_near n it r it'); [lia|roomy|exact E].
    + destruct r; cbn [voption size_of some none vtag tuple1 item]; lia.
  - destruct (type_iter "ExtensionIter" v) as (it & ->); [cbn; tauto|exact T|]. apply iter_sound in S as (_ & S & _).
    destruct (S eq_refl) as (l & A & _). clear S.
    assert (exists r it', ExtensionIter_next it = Ret (r, it')) as (r & it' & E).
    { destruct l as [|y l]; [destruct (at_segs_nil it A) as (it1 & E & _)|destruct (at_segs_cons it y l A) as (it1 & E & _)]; eauto. }
    eapply step_of; [apply in_api; reflexivity|exact T|exact R| |apply (typed_iter "ExtensionIter" it'); cbn; tauto|].
    + apply (swift_crate _ _ _ _ (2000 + 2 * length (it_data it))). intros M n F L.
      apply (ExtensionIter_next_near n it r it'); [lia|roomy|exact E].
    + destruct r; cbn [voption size_of some none vtag tuple1 item]; lia.
  - destruct (type_iter "LanguageExtensionIter" v) as (it & ->); [cbn; tauto|exact T|]. apply iter_sound in S as (_ & _ & S & _).
    destruct (S eq_refl) as (l & A & _). clear S.
    assert (exists r it', LanguageExtensionIter_next it = Ret (r, it')) as (r & it' & E).
    { destruct l as [|y l]; [destruct (at_segs_nil it A) as (it1 & E & _)|destruct (at_segs_cons it y l A) as (it1 & E & _)]; eauto. }
    eapply step_of; [apply in_api; reflexivity|exact T|exact R| |apply (typed_iter "LanguageExtensionIter" it'); cbn; tauto|].
    + apply (swift_crate _ _ _ _ (2000 + 2 * length (it_data it))). intros M n F L.
      apply (LanguageExtensionIter_next_near n it r it'); [lia|roomy|exact E].
    + destruct r; cbn [voption size_of some none vtag tuple1 item]; lia.
  - destruct (type_iter "ExtensionsIter" v) as (it & ->); [cbn; tauto|exact T|]. apply iter_sound in S as (_ & _ & _ & S).
    destruct (S eq_refl) as (l & A). clear S.
    assert (exists r it', ExtensionsIter_next it = Ret (r, it')) as (r & it' & E).
    { destruct l as [|y l]; [pose proof (at_exts_nil it A) as E|destruct (at_exts_cons it y l A) as (it1 & E & _)]; eauto. }
    eapply step_of; [apply in_api; reflexivity|exact T|exact R| |apply (typed_iter "ExtensionsIter" it'); cbn; tauto|].
    + apply (swift_crate _ _ _ _ (2000 + 2 * length (it_data it))). intros M n F L.
      apply (ExtensionsIter_next_near n it r it'); [lia|roomy|exact (at_exts_short it l A)|exact E].
    + destruct r; cbn [voption size_of some none vtag tuple1 item]; lia.
  - destruct (type_viter v T) as (it & ->). apply viter_sound in S as (l & A & _).
    assert (exists r it', VariantsIter_next it = Ret (r, it')) as (r & it' & E).
    { destruct l as [|y l]; [pose proof (proj1 (at_variants_nil it A)) as E|destruct (at_variants_front it y l A) as (it1 & E & _)]; eauto. }
    eapply step_of; [apply in_api; reflexivity|exact T|exact R| |apply (typed_viter it')|].
    + apply (swift_crate _ _ _ _ (2000 + length (v_data it))). intros M n F L.
      apply (VariantsIter_next_near n it r it'); [lia|roomy|exact E].
    + destruct r; cbn [voption size_of some none vtag tuple1 item]; lia.
  - destruct (type_viter v T) as (it & ->). apply viter_sound in S as (l & A & _).
    assert (exists r it', VariantsIter_next_back it = Ret (r, it')) as (r & it' & E).
    { destruct l as [|y l] using rev_ind; [pose proof (proj2 (at_variants_nil it A)) as E|destruct (at_variants_back it y l A) as (it1 & E & _)]; eauto. }
    eapply step_of; [apply in_api; reflexivity|exact T|exact R| |apply (typed_viter it')|].
    + apply (swift_crate _ _ _ _ (2000 + v_end it)). intros M n F L.
      apply (VariantsIter_next_back_near n it r it'); [lia|roomy|exact E].
    + destruct r; cbn [voption size_of some none vtag tuple1 item]; lia.
Qed.
Print Assumptions C74_counter.
Print Assumptions C74_functions.
Print Assumptions C74_public.
Print Assumptions C74_new.
Print Assumptions C74_iterators.
(** Reading ["en-US"] takes 177 steps, a longer tag 580, asking it for its extensions 1834; an item of an iterator 175,
    however much text is before it. *)
Example C74_case :
  kcall 100 crate 300 (VPath ["LangTag"; "new"]) [VStr (bs "en-US")] 0 = (177, Ret (okv (vtag LangTagT (bs "en-US")), [])) /\
  steps 100 crate 300 (VPath ["LangTag"; "new"]) [VStr (bs "en-Latn-US-x-a-b-c")] = 580 /\
  steps 100 crate 300 (VPath ["LangTag"; "extensions"]) [vtag LangTagT (bs "en-Latn-US-x-a-b-c")] = 1834 /\
  steps 100 crate 300 (VPath ["VariantsIter"; "next"]) [vviter (VIter (bs "fonipa-fonxsamp-heploc") 7 22)] = 175 /\
  steps 100 crate 300 (VPath ["VariantsIter"; "next"]) [vviter (VIter (bs "aluku-fonipa-fonxsamp-heploc") 13 28)] = 175 /\
  rooms [VStr (bs "en-US")] = 9 /\ rooms [vviter (VIter (bs "fonipa-fonxsamp-heploc") 7 22)] = 26.
Proof. vm_compute. repeat split. Qed.
