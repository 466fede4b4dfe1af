(** Validation and decomposition do not depend on letter case. *)
From Verif Require Import Base GrammarRs Validate Utils Grandfathered Normal LangTag Newtypes Derived Spec
  Observe RegexEquiv Accept AcceptTag Case Direct Parse.

(** * 1. Automata *)

(** The automaton fed with lower-cased characters, as a reference machine. *)
Definition lower_machine (A : automaton) : machine := {|
  mst := option N;
  mstep := fun q c => step_opt A q (lower_code c);
  macc := acc_opt A;
  mdead := fun q => match q with None => true | _ => false end;
  meqb := optN_eqb
|}.

Lemma lower_mrun A s : forall q, mrun (lower_machine A) q s = run_opt A q (map lower s).
Proof.
  induction s as [|b s IH]; intros q; cbn [mrun lower_machine mstep macc map].
  - destruct q; reflexivity.
  - cbn in IH. rewrite IH. destruct q as [q|]; [|reflexivity]. cbn. rewrite code_lower.
    destruct (push A q (lower_code (code b))); reflexivity.
Qed.

Definition case_blind (fuel : nat) (A : automaton) : bool :=
  bisim A (lower_machine A) (fun c => c) all_codes fuel (Some initial).

Lemma case_blind_sound A fuel : case_blind fuel A = true -> forall s, accepts A s = accepts A (map lower s).
Proof.
  intros H s. unfold accepts. unfold case_blind in H.
  etransitivity.
  - refine (bisim_sound A (lower_machine A) (fun c => c) all_codes (fun _ => True) _ _ _ _ _ _ H I s).
    + intros; exact I.
    + reflexivity.
    + exact optN_eqb_eq.
    + intros s' [q|]; cbn [lower_machine mdead]; [discriminate|]. intros _. rewrite lower_mrun. reflexivity.
  - rewrite lower_mrun. reflexivity.
Qed.

Lemma case_blind_same A fuel : case_blind fuel A = true -> forall s s', same_ci s s' -> accepts A s = accepts A s'.
Proof.
  intros H s s' E. rewrite (case_blind_sound A _ H s), (case_blind_sound A _ H s'). unfold same_ci in E. congruence.
Qed.

Lemma blind_LanguageTag : case_blind 1000 LanguageTag = true. Proof. vm_compute; reflexivity. Qed.
Lemma blind_Privateuse : case_blind 1000 Privateuse = true. Proof. vm_compute; reflexivity. Qed.
Lemma blind_PrivateuseSubtag : case_blind 1000 PrivateuseSubtag = true. Proof. vm_compute; reflexivity. Qed.
Lemma blind_Langtag : case_blind 1000 Langtag = true. Proof. vm_compute; reflexivity. Qed.
Lemma blind_Language : case_blind 1000 Language = true. Proof. vm_compute; reflexivity. Qed.
Lemma blind_Primary : case_blind 1000 Primary = true. Proof. vm_compute; reflexivity. Qed.
Lemma blind_Extlang : case_blind 1000 Extlang = true. Proof. vm_compute; reflexivity. Qed.
Lemma blind_ExtlangTag : case_blind 1000 ExtlangTag = true. Proof. vm_compute; reflexivity. Qed.
Lemma blind_Script : case_blind 1000 Script = true. Proof. vm_compute; reflexivity. Qed.
Lemma blind_Region : case_blind 1000 Region = true. Proof. vm_compute; reflexivity. Qed.
Lemma blind_Variant : case_blind 1000 Variant = true. Proof. vm_compute; reflexivity. Qed.
Lemma blind_Variants : case_blind 1000 Variants = true. Proof. vm_compute; reflexivity. Qed.
Lemma blind_Extension : case_blind 1000 Extension = true. Proof. vm_compute; reflexivity. Qed.
Lemma blind_ExtensionSubtag : case_blind 1000 ExtensionSubtag = true. Proof. vm_compute; reflexivity. Qed.
Lemma blind_Extensions : case_blind 1000 Extensions = true. Proof. vm_compute; reflexivity. Qed.

(** * 2. Components in lower case *)

Lemma lower_alpha b : is_alpha (lower b) = is_alpha b. Proof. destruct b; reflexivity. Qed.
Lemma lower_digit b : is_digit (lower b) = is_digit b. Proof. destruct b; reflexivity. Qed.
Lemma lower_alnum b : is_alnum (lower b) = is_alnum b. Proof. destruct b; reflexivity. Qed.
Lemma lower_singleton b : singleton_ok (lower b) = singleton_ok b. Proof. destruct b; reflexivity. Qed.

Lemma forallb_map {X Y} (f : X -> Y) p (l : list X) : forallb p (map f l) = forallb (fun x => p (f x)) l.
Proof. induction l as [|x l IH]; cbn; congruence. Qed.
Lemma forallb_ext {X} (p q : X -> bool) (l : list X) : (forall x, p x = q x) -> forallb p l = forallb q l.
Proof. intros H. induction l as [|x l IH]; cbn; congruence. Qed.

Lemma sized_lower lo hi p s : (forall b, p (lower b) = p b) -> sized lo hi p (map lower s) = sized lo hi p s.
Proof. intros H. unfold sized. rewrite map_length, forallb_map, (forallb_ext _ _ s H). reflexivity. Qed.

Lemma primary_lower s : primary_ok (map lower s) = primary_ok s.
Proof. apply sized_lower, lower_alpha. Qed.
Lemma extlang_tag_lower s : extlang_tag_ok (map lower s) = extlang_tag_ok s.
Proof. apply sized_lower, lower_alpha. Qed.
Lemma script_lower s : script_ok (map lower s) = script_ok s.
Proof. apply sized_lower, lower_alpha. Qed.
Lemma region_lower s : region_ok (map lower s) = region_ok s.
Proof. unfold region_ok. rewrite !sized_lower; auto using lower_alpha, lower_digit. Qed.
Lemma variant_lower s : variant_ok (map lower s) = variant_ok s.
Proof.
  unfold variant_ok. rewrite !sized_lower; auto using lower_alnum.
  destruct s as [|b s]; [reflexivity|]. cbn [map]. rewrite lower_digit. reflexivity.
Qed.
Lemma ext_subtag_lower s : ext_subtag_ok (map lower s) = ext_subtag_ok s.
Proof. apply sized_lower, lower_alnum. Qed.
Lemma pu_subtag_lower s : pu_subtag_ok (map lower s) = pu_subtag_ok s.
Proof. apply sized_lower, lower_alnum. Qed.

Definition lower_language (l : language) : language :=
  Lang (map lower (l_primary l)) (map (map lower) (l_extlangs l)).
Definition lower_extension (e : extension) : extension :=
  Ext (lower (e_singleton e)) (map (map lower) (e_subtags e)).
Definition lower_private (p : private) : private :=
  Priv (lower (p_x p)) (map (map lower) (p_subtags p)).
Definition lower_tag (t : tag) : tag :=
  Tag (lower_language (t_language t)) (option_map (map lower) (t_script t)) (option_map (map lower) (t_region t))
      (map (map lower) (t_variants t)) (map lower_extension (t_extensions t))
      (option_map lower_private (t_private t)).

Lemma lower_list_ok p (l : list bytes) : (forall s, p (map lower s) = p s) ->
  forallb p (map (map lower) l) = forallb p l.
Proof. intros H. rewrite forallb_map. apply forallb_ext, H. Qed.

Lemma lower_language_ok l : language_ok (lower_language l) = language_ok l.
Proof.
  unfold language_ok, lower_language. cbn [l_primary l_extlangs].
  rewrite primary_lower, map_length, (lower_list_ok _ _ extlang_tag_lower), sized_lower by apply lower_alpha.
  destruct (l_extlangs l); reflexivity.
Qed.
Lemma lower_extension_ok e : extension_ok (lower_extension e) = extension_ok e.
Proof.
  unfold extension_ok, lower_extension. cbn [e_singleton e_subtags].
  rewrite lower_singleton, map_length, (lower_list_ok _ _ ext_subtag_lower). reflexivity.
Qed.
Lemma lower_x b : beq (lower b) "x"%byte || beq (lower b) "X"%byte = beq b "x"%byte || beq b "X"%byte.
Proof. destruct b; reflexivity. Qed.
Lemma lower_private_ok p : private_ok (lower_private p) = private_ok p.
Proof.
  unfold private_ok, lower_private. cbn [p_x p_subtags].
  rewrite lower_x, map_length, (lower_list_ok _ _ pu_subtag_lower). reflexivity.
Qed.
Lemma lower_tag_ok t : tag_ok (lower_tag t) = tag_ok t.
Proof.
  unfold tag_ok, lower_tag. cbn [t_language t_script t_region t_variants t_extensions t_private].
  rewrite lower_language_ok. unfold variants_ok. rewrite (lower_list_ok _ _ variant_lower).
  unfold extensions_ok. rewrite forallb_map, (forallb_ext _ _ _ lower_extension_ok).
  destruct (t_script t), (t_region t), (t_private t); cbn [opt_ok option_map];
    rewrite ?script_lower, ?region_lower, ?lower_private_ok; reflexivity.
Qed.

Lemma map_lower_dtail l : map lower (dtail l) = dtail (map (map lower) l).
Proof.
  induction l as [|x l IH]; [reflexivity|].
  change (dtail (x :: l)) with (dash :: (x ++ dtail l)).
  change (dtail (map (map lower) (x :: l))) with (dash :: (map lower x ++ dtail (map (map lower) l))).
  cbn [map]. rewrite map_app, IH. reflexivity.
Qed.
Lemma map_lower_join l : map lower (join l) = join (map (map lower) l).
Proof. destruct l as [|x l]; [reflexivity|]. cbn [map]. rewrite !join_cons, map_app, map_lower_dtail. reflexivity. Qed.

Lemma lower_ext_parts l : flat_map extension_parts (map lower_extension l) =
  map (map lower) (flat_map extension_parts l).
Proof. induction l as [|e l IH]; [reflexivity|]. cbn [map flat_map]. rewrite IH, map_app. reflexivity. Qed.

Lemma lower_tag_subtags t : tag_subtags (lower_tag t) = map (map lower) (tag_subtags t).
Proof.
  unfold tag_subtags, lower_tag. cbn [t_language t_script t_region t_variants t_extensions t_private].
  rewrite !map_app, lower_ext_parts. f_equal. f_equal; [destruct (t_script t); reflexivity|].
  f_equal; [destruct (t_region t); reflexivity|]. f_equal. f_equal. destruct (t_private t); reflexivity.
Qed.

Lemma lower_tag_text t : tag_text (lower_tag t) = map lower (tag_text t).
Proof. unfold tag_text. rewrite lower_tag_subtags, map_lower_join. reflexivity. Qed.

(** Tags equal up to case have components equal up to case. *)
Theorem same_ci_components t t' : tag_ok t = true -> tag_ok t' = true ->
  same_ci (tag_text t) (tag_text t') -> lower_tag t = lower_tag t'.
Proof.
  intros H H' E. apply tag_unique; rewrite ?lower_tag_ok; auto. rewrite !lower_tag_text. exact E.
Qed.

Lemma lower_language_text l : map lower (language_text l) = language_text (lower_language l).
Proof. unfold language_text. rewrite map_lower_join. reflexivity. Qed.
Lemma lower_extensions_text l : map lower (extensions_text l) = extensions_text (map lower_extension l).
Proof. unfold extensions_text. rewrite map_lower_join, lower_ext_parts. reflexivity. Qed.
Lemma lower_extension_text e : map lower (extension_text e) = extension_text (lower_extension e).
Proof. unfold extension_text. rewrite map_lower_join. reflexivity. Qed.
Lemma lower_private_text p : map lower (private_text p) = private_text (lower_private p).
Proof. unfold private_text. rewrite map_lower_join. reflexivity. Qed.
