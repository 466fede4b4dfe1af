(** Classification of language tags: what [LangTag::as_typed], [kind] and the [is_*] and [as_*] methods return. *)
From Verif Require Import Base GrammarRs Validate Utils Grandfathered Normal LangTag Newtypes Derived Spec
  Observe RegexEquiv Accept AcceptTag Case CaseTag Direct Parse Scan.

(** * 1. Checked constructors *)

Lemma new_langtag s : new Langtag s = Ret (if accepts Langtag s then Ok s else Err s).
Proof. apply new_run, high_Langtag. Qed.
Lemma new_privateuse s : new Privateuse s = Ret (if accepts Privateuse s then Ok s else Err s).
Proof. apply new_run, high_Privateuse. Qed.
Lemma new_tag s : new LanguageTag s = Ret (if accepts LanguageTag s then Ok s else Err s).
Proof. apply new_run, high_LanguageTag. Qed.

Lemma new_ok A s : high_rejects A -> (new A s = Ret (Ok s) <-> accepts A s = true).
Proof. intros H. rewrite (new_run A s H). destruct (accepts A s); split; congruence. Qed.

Lemma new_err A s : high_rejects A -> (new A s = Ret (Err s) <-> accepts A s = false).
Proof. intros H. rewrite (new_run A s H). destruct (accepts A s); split; congruence. Qed.

Lemma new_iff A r s : high_rejects A -> (accepts A s = true <-> matches r s) ->
  (matches r s -> new A s = Ret (Ok s)) /\ (~ matches r s -> new A s = Ret (Err s)).
Proof.
  intros H E. split; intros M.
  - apply new_ok; tauto.
  - apply new_err; [assumption|]. destruct (accepts A s); tauto.
Qed.

(** * 2. The three forms *)

Lemma langtag_is_tag s : accepts Langtag s = true <-> exists t, is_tag s t.
Proof. rewrite accepts_langtag. apply matches_langtag. Qed.

Lemma privateuse_is_private s : accepts Privateuse s = true <-> exists p, private_ok p = true /\ s = private_text p.
Proof. rewrite accepts_privateuse. apply matches_privateuse. Qed.

Lemma language_subtags_head l : language_ok l = true -> exists a b w u, language_subtags l = (a :: b :: w) :: u.
Proof.
  intros H. unfold language_ok in H. apply orb_true_iff in H. unfold language_subtags.
  assert (Hl : 2 <= length (l_primary l)).
  { destruct H as [H|H]; apply andb_true_iff in H as [H _].
    - apply andb_true_iff in H as [H _]. apply sized_spec in H. lia.
    - apply sized_spec in H. lia. }
  destruct (l_primary l) as [|a [|b w]]; cbn in Hl; try lia. eauto.
Qed.

(** A normal tag does not start with a one-byte subtag. *)
Lemma normal_not_private s : accepts Langtag s = true -> accepts Privateuse s = false.
Proof.
  intros H. apply langtag_is_tag in H as [t [Ht E]].
  destruct (accepts Privateuse s) eqn:P; [|reflexivity].
  apply privateuse_is_private in P as [p [Hp E']].
  rewrite E in E'. unfold tag_text, private_text in E'.
  apply join_inj in E'; [| apply tag_subtags_nil | discriminate | apply segs_dash_free, segs_tag, Ht
    | apply segs_dash_free, segs_private, Hp].
  apply tag_ok_parts in Ht as (Hl & _).
  destruct (language_subtags_head _ Hl) as (a & b & w & u & El).
  rewrite tag_subtags_language, El in E'. discriminate E'.
Qed.

Lemma blind_langtag s s' : same_ci s s' -> accepts Langtag s = accepts Langtag s'.
Proof. apply case_blind_same with (1 := blind_Langtag). Qed.
Lemma blind_privateuse s s' : same_ci s s' -> accepts Privateuse s = accepts Privateuse s'.
Proof. apply case_blind_same with (1 := blind_Privateuse). Qed.

Lemma gf_langtag g : accepts Langtag (Grandfathered_as_bytes g) = negb (gf_irregular g).
Proof. destruct g; vm_compute; reflexivity. Qed.
Lemma gf_privateuse g : accepts Privateuse (Grandfathered_as_bytes g) = false.
Proof. destruct g; vm_compute; reflexivity. Qed.

Lemma gf_langtag_ci s g : same_ci s (Grandfathered_as_bytes g) -> accepts Langtag s = negb (gf_irregular g).
Proof. intros H. rewrite (blind_langtag _ _ H). apply gf_langtag. Qed.
Lemma gf_privateuse_ci s g : same_ci s (Grandfathered_as_bytes g) -> accepts Privateuse s = false.
Proof. intros H. rewrite (blind_privateuse _ _ H). apply gf_privateuse. Qed.

(** * 3. The value of [as_typed] *)

Definition typed_of (s : bytes) : outcome typed :=
  if accepts Langtag s then Ret (TNormal s)
  else if accepts Privateuse s then Ret (TPrivateUse s)
  else match gf_find GRANDFATHERED s with Some g => Ret (TGrandfathered g) | None => Panic end.

Lemma as_typed_eq s : LangTag_as_typed s = typed_of s.
Proof.
  unfold LangTag_as_typed, typed_of. rewrite new_langtag. cbn [bind].
  destruct (accepts Langtag s); [reflexivity|]. rewrite new_privateuse. cbn [bind].
  destruct (accepts Privateuse s); [reflexivity|]. rewrite Grandfathered_new_spec. cbn [bind]. unfold gf_result.
  destruct (gf_find GRANDFATHERED s); reflexivity.
Qed.

(** The form of an accepted tag. *)
Inductive form (s : bytes) : typed -> Prop :=
| form_normal : accepts Langtag s = true -> accepts Privateuse s = false -> form s (TNormal s)
| form_private : accepts Langtag s = false -> accepts Privateuse s = true ->
    gf_find GRANDFATHERED s = None -> form s (TPrivateUse s)
| form_irregular : forall g, accepts Langtag s = false -> accepts Privateuse s = false ->
    gf_irregular g = true -> same_ci s (Grandfathered_as_bytes g) -> form s (TGrandfathered g).

Lemma tag_form s : accepts LanguageTag s = true -> exists t, LangTag_as_typed s = Ret t /\ form s t.
Proof.
  intros H. rewrite as_typed_eq. unfold typed_of.
  destruct (accepts Langtag s) eqn:L.
  - eexists; split; [reflexivity|]. constructor; auto using normal_not_private.
  - destruct (accepts Privateuse s) eqn:P.
    + eexists; split; [reflexivity|]. constructor; auto.
      destruct (gf_find GRANDFATHERED s) eqn:G; [|reflexivity].
      apply gf_find_spec in G. rewrite (gf_privateuse_ci _ _ G) in P. discriminate.
    + apply accepts_tag_cases in H as [H|[H|[g H]]]; try congruence.
      rewrite H. eexists; split; [reflexivity|]. apply gf_find_spec in H.
      constructor; auto. rewrite (gf_langtag_ci _ _ H) in L. destruct (gf_irregular g); [reflexivity|discriminate L].
Qed.

Lemma as_normal_eq s : LangTag_as_normal s = Ret (if accepts Langtag s then Some s else None).
Proof. unfold LangTag_as_normal. rewrite new_langtag. destruct (accepts Langtag s); reflexivity. Qed.
Lemma as_private_use_eq s : LangTag_as_private_use s = Ret (if accepts Privateuse s then Some s else None).
Proof. unfold LangTag_as_private_use. rewrite new_privateuse. destruct (accepts Privateuse s); reflexivity. Qed.
Lemma as_grandfathered_eq s : LangTag_as_grandfathered s = Ret (gf_find GRANDFATHERED s).
Proof.
  unfold LangTag_as_grandfathered. rewrite Grandfathered_new_spec. unfold gf_result.
  destruct (gf_find GRANDFATHERED s); reflexivity.
Qed.

Lemma is_normal_eq s : LangTag_is_normal s = Ret (accepts Langtag s).
Proof. unfold LangTag_is_normal. rewrite as_normal_eq. destruct (accepts Langtag s); reflexivity. Qed.
Lemma is_private_use_eq s : LangTag_is_private_use s = Ret (accepts Privateuse s).
Proof. unfold LangTag_is_private_use. rewrite as_private_use_eq. destruct (accepts Privateuse s); reflexivity. Qed.
Lemma is_grandfathered_eq s : LangTag_is_grandfathered s = Ret (is_some (gf_find GRANDFATHERED s)).
Proof. unfold LangTag_is_grandfathered. rewrite as_grandfathered_eq. reflexivity. Qed.
