(** Every value that a program using the crate can get hold of is sound: a tag is one of its grammar, an iterator is at
    a place of one, and a function given such values returns such values, or panics at a tag that is too short. *)
From Verif Require Import Base GrammarRs Validate Utils Grandfathered Normal LangTag Newtypes Derived Spec Observe
  Grammar Accept Case Parse Scan Access Iter Kind Parts Values Order More.
From Verif Require Import RustText RustSyntax RustEval RustProgram RustRefine RustGrammar RustValidate RustNormal RustAccess
  RustTags RustLib RustSays RustClient PropsSource PropsMended.
Import Base.
Open Scope string_scope.
Open Scope nat_scope.
Open Scope list_scope.

Lemma ascii_utf8 s : ascii s = true -> utf8 s.
Proof.
  intros A. assert (H : forall k i, i + k = length s -> utf8_from s i).
  { induction k as [|k IH]; intros i E.
    - rewrite Nat.add_0_r in E. subst i. apply utf8_end.
    - destruct (nth_error s i) as [b|] eqn:N; [|apply nth_error_None in N; lia].
      apply (utf8_next s i (code b) 1); [|apply IH; lia]. unfold decode_utf8_char. rewrite N.
      unfold ascii in A. rewrite (proj1 (forallb_forall _ _) A b (nth_error_In _ _ N)). reflexivity. }
  apply (H (length s)). reflexivity.
Qed.
Lemma utf8_one s : utf8 s -> length s = 1 -> ascii s = true.
Proof.
  intros U L. destruct s as [|b [|c s]]; try discriminate L. inversion U; subst. match goal with H : decode_utf8_char _ _ = _ |- _ => rename H into D end.
  unfold decode_utf8_char in D. cbn [nth_error] in D. unfold ascii. cbn [forallb].
  destruct (code b <? 128)%N; [reflexivity|]. unfold cont in D. cbn [nth_error Nat.add] in D.
  repeat match type of D with (if ?c then _ else _) = _ => destruct c end; discriminate D.
Qed.
Lemma grandfathered_ascii g : ascii (Grandfathered_as_bytes g) = true.
Proof. destruct g; reflexivity. Qed.
Lemma type_of_inj t t' : type_of t = type_of t' -> t = t'.
Proof. destruct t, t'; intros E; try discriminate E; reflexivity. Qed.
Lemma singleton_alphanumeric b : singleton_ok b = true -> is_ascii_alphanumeric b = true.
Proof. destruct b; intros H; vm_compute in H; try discriminate H; reflexivity. Qed.

(** Where a function panics: an accessor of a normal tag, which ends before what it looks for.  ([language] does not.) *)
Definition ends_before (m : string) (t : tag) : bool :=
  if String.eqb m "script" then ends_by_language t
  else if String.eqb m "region" then ends_by_script t
  else if existsb (String.eqb m) ["variants"; "private_use"; "private_use_subtags"] then ends_by_region t
  else if String.eqb m "extensions" then ends_by_variants t
  else false.
Definition panics (f : list string) (args : list value) : Prop :=
  exists ty m s t, (ty = LangTagT \/ ty = NormalLangTagT) /\ f = [type_of ty; m] /\ args = [vtag ty s] /\
    is_tag s t /\ ends_before m t = true.

Section Sound.
(** The texts of the [PrivateUse] values: at least those of the grammar, and subtags from a singleton or an [x] on. *)
Variable pu : bytes -> Prop.
Hypothesis pu_accepted : forall s, accepted PrivateUseT s -> pu s.
Hypothesis pu_form : forall s, pu s -> exists b l, s = join ([b] :: l) /\ forallb seg_ok ([b] :: l) = true.

Definition good (ty : newtype) (s : bytes) : Prop :=
  match ty with
  | PrimaryLanguageT => exists l, language_ok l = true /\ s = l_primary l
  | PrivateUseT => pu s
  | _ => accepted ty s
  end.
Definition iter_ok (x : string) (it : iter) : Prop :=
  (x = "PrivateUseIter" -> exists l, at_segs it l) /\
  (x = "ExtensionIter" -> exists l, at_segs it l /\ forallb ext_subtag_ok l = true) /\
  (x = "LanguageExtensionIter" -> exists l, at_segs it l /\ forallb extlang_tag_ok l = true) /\
  (x = "ExtensionsIter" -> exists l, at_exts it l).
Definition ok (v : value) : Prop :=
  match v with
  | VStr s => utf8 s
  | VStruct x [(_, VStr s)] => forall ty, x = type_of ty -> good ty s
  | VStruct x [(_, VByte b)] => x = "Singleton" -> singleton_ok b = true
  | VStruct x [(_, VStr d); (_, VNat o)] => iter_ok x (Iter d o)
  | VStruct _ [(_, VStr d); (_, VNat o); (_, VNat e)] =>
      exists l, at_variants (VIter d o e) l /\ forallb variant_ok l = true
  | _ => True
  end.
Inductive within : value -> value -> Prop :=
| within_refl v : within v v
| within_part u v w : part v w -> within u v -> within u w.
Definition sound (v : value) : Prop := forall w, within w v -> ok w.

Lemma sound_ok v : sound v -> ok v.
Proof. intros H. apply H, within_refl. Qed.
Lemma sound_part v w : sound v -> part w v -> sound w.
Proof. intros H P u U. apply H. eapply within_part; eassumption. Qed.
Lemma sound_leaf v : (forall w, ~ part w v) -> ok v -> sound v.
Proof. intros N O w W. inversion W as [|? ? ? P]; subst; [exact O|]. destruct (N _ P). Qed.
Lemma sound_enum t c l : Forall sound l -> sound (VEnum t c l).
Proof.
  intros F w W. inversion W as [|? u ? P W']; subst; [exact I|]. inversion P; subst.
  apply (proj1 (Forall_forall _ _) F u); assumption.
Qed.
Lemma sound_invalid x v : sound v -> sound (tuple1 ("Invalid" ++ x) v).
Proof.
  intros S w W. inversion W as [|? u ? P W']; subst.
  - unfold tuple1. cbn [ok]. destruct v; try exact I.
    + intros E. discriminate E.
    + intros [] E; discriminate E.
  - inversion P; subst. now apply S.
Qed.
Ltac leaf := apply sound_leaf; [intros w P; inversion P|].
Lemma sound_unit : sound VUnit. Proof. leaf. exact I. Qed.
Lemma sound_bool b : sound (VBool b). Proof. leaf. exact I. Qed.
Lemma sound_byte b : sound (VByte b). Proof. leaf. exact I. Qed.
Lemma sound_char c : sound (VChar c). Proof. leaf. exact I. Qed.
Lemma sound_bytes s : sound (VBytes s). Proof. leaf. exact I. Qed.
Lemma sound_sink l : sound (VSink l). Proof. leaf. exact I. Qed.
Lemma sound_str s : utf8 s -> sound (VStr s). Proof. intros U. leaf. exact U. Qed.
Lemma sound_tag ty s : good ty s -> sound (vtag ty s).
Proof.
  intros G. apply sound_leaf.
  - intros w P. inversion P as [|x v E]. unfold tuple1, vtag in E. destruct ty; discriminate.
  - intros ty' E. apply type_of_inj in E as <-. exact G.
Qed.
Lemma sound_singleton b : singleton_ok b = true -> sound (vsingleton b).
Proof. intros G. apply sound_leaf; [intros w P; inversion P|intros _; exact G]. Qed.
Lemma sound_iter x it : iter_ok x it -> sound (viter_of x it).
Proof. intros G. apply sound_leaf; [intros w P; inversion P|]. destruct it. exact G. Qed.
Lemma sound_viter it l : at_variants it l -> forallb variant_ok l = true -> sound (vviter it).
Proof. intros A G. apply sound_leaf; [intros w P; inversion P|]. destruct it. exists l. auto. Qed.
Lemma sound_option {A} (f : A -> value) o : (forall a, o = Some a -> sound (f a)) -> sound (voption f o).
Proof.
  intros H. destruct o as [a|]; apply sound_enum; [|apply Forall_nil]. apply Forall_cons; [now apply H|apply Forall_nil].
Qed.
Lemma sound_okv v : sound v -> sound (okv v).
Proof. intros H. apply sound_enum. auto. Qed.
Lemma sound_errv v : sound v -> sound (errv v).
Proof. intros H. apply sound_enum. auto. Qed.
Lemma sound_ordering c : sound (ordering c).
Proof. apply sound_enum, Forall_nil. Qed.
Lemma sound_kind k : sound (vkind k).
Proof. apply sound_enum, Forall_nil. Qed.
Lemma sound_grandfathered g : sound (vgrandfathered g).
Proof. apply sound_enum, Forall_nil. Qed.

Lemma tag_sound ty s : sound (vtag ty s) -> good ty s.
Proof. intros H. exact (sound_ok _ H ty eq_refl). Qed.
Lemma singleton_sound b : sound (vsingleton b) -> singleton_ok b = true.
Proof. intros H. exact (sound_ok _ H eq_refl). Qed.
Lemma iter_sound x it : sound (viter_of x it) -> iter_ok x it.
Proof. intros H. apply sound_ok in H. destruct it. exact H. Qed.
Lemma viter_sound it : sound (vviter it) -> exists l, at_variants it l /\ forallb variant_ok l = true.
Proof. intros H. apply sound_ok in H. destruct it. exact H. Qed.
Lemma str_sound s : sound (VStr s) -> utf8 s.
Proof. apply sound_ok. Qed.

(** * Results *)

Definition fine (r : outcome (value * list value)) : Prop :=
  exists v outs, r = Ret (v, outs) /\ sound v /\ Forall sound outs.
Lemma fine_ret v outs : sound v -> Forall sound outs -> fine (Ret (v, outs)).
Proof. intros V O. exists v, outs. auto. Qed.
Lemma fine_lift {A} (f : A -> value) x a : x = Ret a -> sound (f a) -> fine (lift f x).
Proof. intros -> S. exists (f a), []. auto. Qed.
Lemma fine_step {A B} (f : A -> value) (g : B -> value) x a b : x = Ret (a, b) -> sound (f a) -> sound (g b) -> fine (lift_step f g x).
Proof. intros -> S T. exists (f a), [g b]. auto. Qed.

Hint Resolve sound_unit sound_bool sound_byte sound_char sound_bytes sound_sink sound_str sound_singleton sound_okv sound_errv
  sound_ordering sound_kind sound_grandfathered : sounds.
Lemma good_accepted ty s : accepted ty s -> good ty s.
Proof.
  intros A. destruct ty; try exact A; cbn [good].
  - now apply pu_accepted.
  - apply accepted_primary in A. exists (Lang s []). split; [|reflexivity]. unfold language_ok. cbn [l_primary l_extlangs]. rewrite A. reflexivity.
Qed.
Lemma fine_new ty w s : (sound (w s)) -> fine (lift (vresult ty w) (new_of ty s)).
Proof.
  intros W. destruct (rules_decided ty s) as [[E _]|[E _]]; apply (fine_lift _ _ _ E); cbn [vresult].
  - apply sound_okv, sound_tag, good_accepted, E.
  - apply sound_errv, sound_invalid, W.
Qed.
Lemma fine_gf w s : sound (w s) -> fine (lift (vgrandfathered_result w) (Grandfathered_try_from s)).
Proof.
  intros W. unfold Grandfathered_try_from. rewrite try_from_loop_spec. eapply fine_lift; [reflexivity|].
  destruct (gf_find GRANDFATHERED s); cbn [vgrandfathered_result]; auto with sounds.
Qed.
Lemma fine_gf_new w s : sound (w s) -> fine (lift (vgrandfathered_result w) (Grandfathered_new s)).
Proof.
  intros W. rewrite Grandfathered_new_spec. eapply fine_lift; [reflexivity|]. unfold gf_result.
  destruct (gf_find GRANDFATHERED s); cbn [vgrandfathered_result]; auto with sounds.
Qed.
Lemma sound_singleton_result {E} (w : E -> value) r : (forall b, r = Ok b -> singleton_ok b = true) ->
  (forall e, r = Err e -> sound (w e)) -> sound (vsingleton_result w r).
Proof.
  intros O X. destruct r as [b|e]; cbn [vsingleton_result]; [auto with sounds|].
  apply sound_errv. apply (sound_invalid "Singleton"). auto.
Qed.
Lemma fine_from_string s : sound (VStr s) -> fine (lift (vsingleton_result VStr) (Singleton_from_string s)).
Proof.
  intros U. destruct (Nat.eq_dec (length s) 1) as [L|L].
  - eapply fine_lift; [apply Singleton_from_string_ascii, utf8_one, L; now apply str_sound|]. destruct s as [|b [|c s]]; try discriminate L.
    apply sound_singleton_result; intros x; destruct (singleton_ok b) eqn:E; intros X; try discriminate X; injection X as <-; auto with sounds.
  - apply (fine_lift _ _ _ (proj1 (singleton_length s L))). apply sound_singleton_result; intros x X; [discriminate X|]. injection X as <-. exact U.
Qed.
Lemma last_of_in {A} (l : list A) a : last_of l = Some a -> In a l.
Proof.
  unfold last_of. intros E. apply in_rev. destruct (rev l) as [|x r]; [discriminate E|]. injection E as <-. now left.
Qed.
(** The accessors. *)
Lemma tag_or_not s : good LangTagT s -> (exists t, is_tag s t) \/ ~ matches abnf_langtag s.
Proof.
  intros _. destruct (accepts Langtag s) eqn:E; [left|right].
  - now apply langtag_is_tag.
  - intros M. apply accepts_langtag in M. congruence.
Qed.
Lemma normal_tag s : good NormalLangTagT s -> exists t, is_tag s t.
Proof. apply accepted_normal. Qed.
Lemma short {A} ty m s t (f : A -> value) x b a : ty = LangTagT \/ ty = NormalLangTagT -> is_tag s t -> ends_before m t = b ->
  x = (if b then Panic else Ret a) -> (b = false -> sound (f a)) ->
  fine (lift f x) \/ (lift f x = Panic /\ panics [type_of ty; m] [vtag ty s]).
Proof.
  intros Y T E X S. destruct b; subst x; [right|left].
  - split; [reflexivity|]. exists ty, m, s, t. auto.
  - eapply fine_lift; [reflexivity|]. auto.
Qed.
Lemma sound_component ty o : ty <> PrimaryLanguageT -> ty <> PrivateUseT -> accepted_opt ty o -> sound (voption (vtag ty) o).
Proof. intros N M A. apply sound_option. intros a ->. apply sound_tag, good_accepted, A. Qed.
Lemma is_tag_parts s t : is_tag s t -> accepted LanguageT (language_text (t_language t)) /\ accepted_opt ScriptT (t_script t) /\
  accepted_opt RegionT (t_region t) /\ accepted VariantsT (join (t_variants t)) /\
  accepted ExtensionsT (extensions_text (t_extensions t)) /\ accepted_opt PrivateUseT (option_map private_text (t_private t)).
Proof.
  intros [O _]. apply tag_ok_parts in O as (Ol & Oc & Or & Ov & Oe & Op).
  split; [apply accepted_language; eexists; eauto|]. split; [destruct (t_script t); [now apply accepted_script|exact I]|].
  split; [destruct (t_region t); [now apply accepted_region|exact I]|].
  split; [apply accepted_variants; eexists; eauto|]. split; [apply accepted_extensions; eexists; eauto|].
  destruct (t_private t); [apply accepted_private; eexists; eauto|exact I].
Qed.
Lemma sound_default x : In x ["PrivateUseIter"; "ExtensionIter"; "LanguageExtensionIter"] -> sound (viter_of x iter_default).
Proof.
  intros X. apply sound_iter. repeat split; intros E; subst x; try (exists []; auto using iter_default_at).
  cbn in X. decompose [or] X; try discriminate; contradiction.
Qed.
Lemma iter_private it l : at_segs it l -> sound (viter_of "PrivateUseIter" it).
Proof. intros A. apply sound_iter. repeat split; intros E; try discriminate E. now exists l. Qed.
Lemma iter_extension it l : at_segs it l -> forallb ext_subtag_ok l = true -> sound (viter_of "ExtensionIter" it).
Proof. intros A B. apply sound_iter. repeat split; intros E; try discriminate E. now exists l. Qed.
Lemma iter_extlang it l : at_segs it l -> forallb extlang_tag_ok l = true -> sound (viter_of "LanguageExtensionIter" it).
Proof. intros A B. apply sound_iter. repeat split; intros E; try discriminate E. now exists l. Qed.
Lemma iter_extensions it l : at_exts it l -> sound (viter_of "ExtensionsIter" it).
Proof. intros A. apply sound_iter. repeat split; intros E; try discriminate E. now exists l. Qed.
Lemma as_typed_sound s : good LangTagT s -> exists t, LangTag_as_typed s = Ret t /\ sound (vtyped t).
Proof.
  intros A. apply (new_ok LanguageTag) in A; [|exact high_LanguageTag]. destruct (tag_form s A) as (t & E & F).
  exists t. split; [exact E|]. destruct F as [L _|_ P _|g _ _ _ _]; apply sound_enum; (apply Forall_cons; [|apply Forall_nil]).
  - apply sound_tag. apply new_ok; [exact high_Langtag|exact L].
  - apply sound_tag. apply pu_accepted. apply new_ok; [exact high_Privateuse|exact P].
  - apply sound_grandfathered.
Qed.
Lemma typed_sound t : sound (vtyped t) ->
  match t with TNormal s => sound (vtag NormalLangTagT s) | TPrivateUse s => sound (vtag PrivateUseT s) | TGrandfathered _ => True end.
Proof. intros S. destruct t; [| |exact I]; (eapply sound_part; [exact S|]; apply part_enum; now left). Qed.

Lemma says_sound f args r : says f args r -> hidden_path f = false -> ~ about_private f -> Forall sound args ->
  fine r \/ (r = Panic /\ panics f args).
Proof.
  intros H N A S.
  destruct H; try discriminate N; try (destruct ty; discriminate N); try (destruct A; unfold about_private; tauto); clear N A;
    repeat match goal with F : Forall sound (_ :: _) |- _ => inversion F; clear F; subst | F : Forall sound [] |- _ => clear F end;
    try (left; apply fine_ret; [auto with sounds|auto with sounds]; fail);
    try match goal with X : sound (vtag _ _) |- _ => rename X into G; apply tag_sound in G end;
    try match goal with X : sound (viter_of _ _) |- _ => rename X into G; apply iter_sound in G as (I1 & I2 & I3 & I4) end;
    try match goal with X : sound (vviter _) |- _ => rename X into G; apply viter_sound in G as (l & G & V) end;
    try match goal with X : sound (VStr _) |- _ => rename X into U end.
  - left. now apply fine_new.
  - left. now apply fine_new.
  - left. eapply fine_lift; [apply eq_of_ci|auto with sounds].
  - left. destruct (proj1 (cmp_total_order ty) a b) as (c & _ & _ & E). apply (fine_lift _ _ _ E). apply sound_option. auto with sounds.
  - left. eapply fine_lift; [apply cmp_of_ci|auto with sounds].
  - left. destruct (tag_or_not s G) as [(t & T)|T].
    + destruct (LangTag_normal s t T) as (E & _). rewrite (language_exact s t T) in E. apply (fine_lift _ _ _ E).
      apply sound_option. intros a X. injection X as <-. apply sound_tag. apply (is_tag_parts s t T).
    + apply (fine_lift _ _ _ (proj1 (LangTag_not_normal s T))). apply sound_option. discriminate.
  - destruct (tag_or_not s G) as [(t & T)|T].
    + eapply (short LangTagT); [now left|exact T|reflexivity|rewrite (proj1 (proj2 (LangTag_normal s t T))); apply script_exact, T|].
      intros _. apply sound_component; [discriminate..|]. apply (is_tag_parts s t T).
    + left. apply (fine_lift _ _ _ (proj1 (proj2 (LangTag_not_normal s T)))). apply sound_option. discriminate.
  - destruct (tag_or_not s G) as [(t & T)|T].
    + eapply (short LangTagT); [now left|exact T|reflexivity|rewrite (proj1 (proj2 (proj2 (LangTag_normal s t T)))); apply region_exact, T|].
      intros _. apply sound_component; [discriminate..|]. apply (is_tag_parts s t T).
    + left. apply (fine_lift _ _ _ (proj1 (proj2 (proj2 (LangTag_not_normal s T))))). apply sound_option. discriminate.
  - destruct (tag_or_not s G) as [(t & T)|T].
    + eapply (short LangTagT); [now left|exact T|reflexivity|rewrite (proj1 (proj2 (proj2 (proj2 (LangTag_normal s t T))))); apply variants_exact, T|].
      intros _. apply sound_tag. apply (is_tag_parts s t T).
    + left. apply (fine_lift _ _ _ (proj1 (proj2 (proj2 (proj2 (LangTag_not_normal s T)))))). apply sound_tag, constants_valid.
  - destruct (tag_or_not s G) as [(t & T)|T].
    + eapply (short LangTagT); [now left|exact T|reflexivity|rewrite (proj1 (proj2 (proj2 (proj2 (proj2 (LangTag_normal s t T)))))); apply extensions_exact, T|].
      intros _. apply sound_tag. apply (is_tag_parts s t T).
    + left. apply (fine_lift _ _ _ (proj1 (proj2 (proj2 (proj2 (proj2 (LangTag_not_normal s T))))))). apply sound_tag, constants_valid.
  - left. eapply fine_lift; [apply is_normal_eq|auto with sounds].
  - left. eapply fine_lift; [apply is_private_use_eq|auto with sounds].
  - left. eapply fine_lift; [apply is_grandfathered_eq|auto with sounds].
  - left. eapply fine_lift; [apply as_normal_eq|]. apply sound_option. intros a X. destruct (accepts Langtag s) eqn:E; [|discriminate X].
    injection X as <-. apply sound_tag. apply new_ok; [exact high_Langtag|exact E].
  - left. eapply fine_lift; [apply as_private_use_eq|]. apply sound_option. intros a X. destruct (accepts Privateuse s) eqn:E; [|discriminate X].
    injection X as <-. apply sound_tag. apply pu_accepted. apply new_ok; [exact high_Privateuse|exact E].
  - left. eapply fine_lift; [apply as_grandfathered_eq|]. apply sound_option. auto with sounds.
  - left. destruct (as_typed_sound s G) as (t & E & _). unfold LangTag_kind. rewrite E. eapply fine_lift; [reflexivity|auto with sounds].
  - left. destruct (as_typed_sound s G) as (t & E & X). apply (fine_lift _ _ _ E X).
  - left. match goal with X : sound (vtyped t) |- _ => apply typed_sound in X; rename X into G end. destruct t as [s|s|g].
    + apply tag_sound, normal_tag in G as (t & T). cbn [Typed_language]. rewrite (language_exact s t T).
      eapply fine_lift; [reflexivity|]. apply sound_option. intros a X. injection X as <-. apply sound_tag. apply (is_tag_parts s t T).
    + eapply fine_lift; [reflexivity|]. apply sound_option. discriminate.
    + eapply fine_lift; [reflexivity|]. apply sound_option. intros a X. apply sound_tag. now apply constants_valid in X.
  - left. match goal with X : sound (vtyped t) |- _ => apply typed_sound in X; rename X into G end. apply fine_ret; [|auto].
    apply sound_option. destruct t; intros a X; try discriminate X. injection X as <-. exact G.
  - left. match goal with X : sound (vtyped t) |- _ => apply typed_sound in X; rename X into G end. apply fine_ret; [|auto].
    apply sound_option. destruct t; intros a X; try discriminate X. injection X as <-. exact G.
  - left. apply fine_ret; [|auto]. apply sound_option. auto with sounds.
  - left. now apply fine_gf_new.
  - left. apply fine_gf. apply (sound_invalid "GrandfatheredTag"). auto with sounds.
  - left. apply fine_ret; [|auto]. apply sound_option. intros a X. apply sound_tag. now apply constants_valid in X.
  - left. apply fine_ret; [|auto]. apply sound_str, ascii_utf8, grandfathered_ascii.
  - left. apply normal_tag in G as (t & T). eapply fine_lift; [apply (language_exact s t T)|]. apply sound_tag. apply (is_tag_parts s t T).
  - apply normal_tag in G as (t & T). eapply (short NormalLangTagT); [now right|exact T|reflexivity|apply script_exact, T|].
    intros _. apply sound_component; [discriminate..|]. apply (is_tag_parts s t T).
  - apply normal_tag in G as (t & T). eapply (short NormalLangTagT); [now right|exact T|reflexivity|apply region_exact, T|].
    intros _. apply sound_component; [discriminate..|]. apply (is_tag_parts s t T).
  - apply normal_tag in G as (t & T). eapply (short NormalLangTagT); [now right|exact T|reflexivity|apply variants_exact, T|].
    intros _. apply sound_tag. apply (is_tag_parts s t T).
  - apply normal_tag in G as (t & T). eapply (short NormalLangTagT); [now right|exact T|reflexivity|apply extensions_exact, T|].
    intros _. apply sound_tag. apply (is_tag_parts s t T).
  - left. apply fine_ret; [|auto]. rewrite Singleton_new_spec. apply sound_singleton_result; intros x; destruct (singleton_ok c) eqn:E; intros X;
      try discriminate X; injection X as <-; auto with sounds.
  - left. apply fine_ret; [|auto]. unfold Singleton_try_from_u8. rewrite Singleton_new_spec. apply sound_singleton_result; intros x; destruct (singleton_ok c) eqn:E; intros X;
      try discriminate X; injection X as <-; auto with sounds.
  - left. apply fine_ret; [|auto]. rewrite Singleton_try_from_char_spec. apply sound_singleton_result; intros x; destruct (Strings.Byte.of_N c) as [b|];
      try destruct (singleton_ok b) eqn:E; intros X; try discriminate X; injection X as <-; auto with sounds.
  - left. now apply fine_from_string.
  - left. destruct (fine_from_string s U) as (v & outs & E & Sv & _). unfold Singleton_from_str.
    destruct (Singleton_from_string s) as [[b|e]| |]; try discriminate E; injection E as <- <-; (eapply fine_lift; [reflexivity|]); [exact Sv|].
    apply sound_errv, (sound_invalid "Singleton"), U.
  - left. apply fine_ret; [|auto]. destruct (pu_form s G) as (b & l & -> & F). apply (iter_private _ l). now apply at_segs_after.
  - left. apply fine_ret; [|auto]. apply sound_default. cbn. tauto.
  - left. destruct (I1 eq_refl) as (l & L). rewrite PrivateUseIter_next_eq. destruct l as [|x l].
    + destruct (at_segs_nil it L) as (it' & E & L'). apply (fine_step _ _ _ _ _ E); [apply sound_option; discriminate|now apply (iter_private _ [])].
    + destruct (at_segs_cons it x l L) as (it' & E & L'). apply (fine_step _ _ _ _ _ E); [|now apply (iter_private _ l)].
      apply sound_option. intros a X. injection X as <-. apply sound_tag, good_accepted, accepted_pu_subtag.
      destruct L as (_ & L & _). cbn [forallb] in L. now apply andb_prop in L as [L _].
  - left. apply accepted_extension in G as (e & L & ->). apply fine_ret; [|auto]. apply (iter_extension _ (e_subtags e)); [now apply Extension_iter_spec|].
    destruct e. now apply extension_ok_parts in L as (_ & _ & L).
  - left. apply fine_ret; [|auto]. apply sound_default. cbn. tauto.
  - left. destruct (I2 eq_refl) as (l & L & F). rewrite ExtensionIter_next_eq. destruct l as [|x l].
    + destruct (at_segs_nil it L) as (it' & E & L'). apply (fine_step _ _ _ _ _ E); [apply sound_option; discriminate|now apply (iter_extension _ [])].
    + destruct (at_segs_cons it x l L) as (it' & E & L'). cbn [forallb] in F. apply andb_prop in F as [F F'].
      apply (fine_step _ _ _ _ _ E); [|now apply (iter_extension _ l)].
      apply sound_option. intros a X. injection X as <-. now apply sound_tag, good_accepted, accepted_ext_subtag.
  - left. apply accepted_extlang in G as (l & L & ->). apply fine_ret; [|auto]. apply (iter_extlang _ l); [now apply LanguageExtension_iter_spec|].
    unfold extlangs_ok in L. now apply andb_prop in L as [_ L].
  - left. apply fine_ret; [|auto]. apply sound_default. cbn. tauto.
  - left. destruct (I3 eq_refl) as (l & L & F). rewrite LanguageExtensionIter_next_eq. destruct l as [|x l].
    + destruct (at_segs_nil it L) as (it' & E & L'). apply (fine_step _ _ _ _ _ E); [apply sound_option; discriminate|now apply (iter_extlang _ [])].
    + destruct (at_segs_cons it x l L) as (it' & E & L'). cbn [forallb] in F. apply andb_prop in F as [F F'].
      apply (fine_step _ _ _ _ _ E); [|now apply (iter_extlang _ l)].
      apply sound_option. intros a X. injection X as <-. now apply sound_tag, good_accepted, accepted_extlang_tag.
  - left. apply accepted_extensions in G as (l & L & ->). apply fine_ret; [|auto]. apply (iter_extensions _ l). now apply Extensions_iter_spec.
  - left. destruct (I4 eq_refl) as (l & L). destruct l as [|x l].
    + apply (fine_step _ _ _ _ _ (at_exts_nil it L)); [apply sound_option; discriminate|now apply (iter_extensions _ [])].
    + destruct (at_exts_cons it x l L) as (it' & E & L'). apply (fine_step _ _ _ _ _ E); [|now apply (iter_extensions _ l)].
      apply sound_option. intros a X. injection X as <-. apply sound_tag, accepted_extension. exists x. split; [|reflexivity].
      destruct L as (_ & L & _). cbn [extensions_ok forallb] in L. now apply andb_prop in L as [L _].
  - left. apply accepted_variants in G as (l & L & ->). apply fine_ret; [|auto]. apply (sound_viter _ l); [now apply Variants_iter_spec|exact L].
  - left. apply fine_ret; [|auto]. apply (sound_viter _ []); [|reflexivity]. repeat split; cbn; lia.
  - left. destruct l as [|x l].
    + apply (fine_step _ _ _ _ _ (proj1 (at_variants_nil it G))); [apply sound_option; discriminate|now apply (sound_viter _ [])].
    + destruct (at_variants_front it x l G) as (it' & E & L'). cbn [forallb] in V. apply andb_prop in V as [V V'].
      apply (fine_step _ _ _ _ _ E); [|now apply (sound_viter _ l)].
      apply sound_option. intros a X. injection X as <-. now apply sound_tag, good_accepted, accepted_variant.
  - left. destruct l as [|x l] using rev_ind; [|clear IHl].
    + apply (fine_step _ _ _ _ _ (proj2 (at_variants_nil it G))); [apply sound_option; discriminate|now apply (sound_viter _ [])].
    + destruct (at_variants_back it x l G) as (it' & E & L'). rewrite forallb_app in V. cbn [forallb] in V. apply andb_prop in V as [V' V].
      rewrite andb_true_r in V.
      apply (fine_step _ _ _ _ _ E); [|now apply (sound_viter _ l)].
      apply sound_option. intros a X. injection X as <-. now apply sound_tag, good_accepted, accepted_variant.
  - left. apply accepted_variants in G as (l & L & ->). apply (fine_lift _ _ _ (proj1 (variants_first_last l L))).
    apply sound_option. intros a X. apply sound_tag, accepted_variant. destruct l as [|x l]; [discriminate X|]. injection X as <-.
    cbn [variants_ok forallb] in L. now apply andb_prop in L as [L _].
  - left. apply accepted_variants in G as (l & L & ->). apply (fine_lift _ _ _ (proj2 (variants_first_last l L))).
    apply sound_option. intros a X. apply sound_tag, accepted_variant. exact (in_forallb _ _ _ L (last_of_in _ _ X)).
  - left. destruct (extension_singleton_spec s G) as (b & x & -> & B & E). apply (fine_lift _ _ _ E). auto with sounds.
  - left. apply accepted_extensions in G as (l & L & ->). pose proof (Extensions_get_spec l c L) as E. apply (fine_lift _ _ _ E).
    apply sound_option. intros a X. apply sound_tag. rewrite X in E. apply (get_valid _ _ _ (proj2 (accepted_extensions _) (ex_intro _ l (conj L eq_refl))) E).
  - left. apply accepted_extensions in G as (l & L & ->). unfold Extensions_iter_extension. rewrite (Extensions_get_spec l c L).
    cbn [bind]. destruct (find _ l) as [e|] eqn:F; (eapply fine_lift; [reflexivity|]).
    + cbn [option_map]. apply find_some in F as [F _]. pose proof (in_forallb _ _ _ L F) as Y.
      apply (iter_extension _ (e_subtags e)); [now apply Extension_iter_spec|]. destruct e. now apply extension_ok_parts in Y as (_ & _ & Y).
    + apply sound_default. cbn. tauto.
  - left. apply accepted_language in G as (l & L & ->). apply fine_ret; [|auto]. rewrite (Language_primary_spec l L).
    apply sound_tag. exists l. auto.
  - left. apply fine_ret; [|auto]. apply sound_option. intros a X. apply sound_tag. now apply (language_parts_valid s G).
  - left. apply accepted_language in G as (l & L & ->). apply fine_ret; [|auto].
    apply (iter_extlang _ (l_extlangs l)); [now apply Language_extension_subtags_spec|]. now apply language_extlangs.
Qed.
End Sound.
