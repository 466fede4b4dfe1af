(** Validation computes the run of the automaton; the automata agree with the ABNF. *)
From Verif Require Import Base GrammarRs Validate Utils Grandfathered Normal LangTag Newtypes Derived Spec
  Observe RegexEquiv.

(** * 1. Characters above 127 are rejected by every automaton *)

Definition high_rejects (A : automaton) : Prop := forall q c, (128 <= c)%N -> push A q c = None.

Lemma R_high lo hi c : (code hi <? 128)%N = true -> (128 <= c)%N -> R lo hi c = false.
Proof.
  intros H1 H2. apply N.ltb_lt in H1. unfold R. apply andb_false_iff. right.
  apply N.leb_gt. lia.
Qed.

Lemma C_high x c : (code x <? 128)%N = true -> (128 <= c)%N -> C x c = false.
Proof.
  intros H1 H2. apply N.ltb_lt in H1. unfold C. apply N.eqb_neq. lia.
Qed.

Ltac high_push :=
  intros q c Hc;
  cbn [push LanguageTag Privateuse PrivateuseSubtag Langtag Language Primary Extlang ExtlangTag Script
       Region Variant Variants Extension ExtensionSubtag Extensions];
  match goal with |- ?f q c = None => unfold f end;
  repeat match goal with
  | |- context [R ?lo ?hi c] => rewrite (R_high lo hi c eq_refl Hc)
  | |- context [C ?x c] => rewrite (C_high x c eq_refl Hc)
  end;
  cbn [orb];
  destruct q as [|q]; [reflexivity|];
  repeat (destruct q as [q|q|]; try reflexivity).

Lemma high_LanguageTag : high_rejects LanguageTag. Proof. high_push. Qed.
Lemma high_Privateuse : high_rejects Privateuse. Proof. high_push. Qed.
Lemma high_PrivateuseSubtag : high_rejects PrivateuseSubtag. Proof. high_push. Qed.
Lemma high_Langtag : high_rejects Langtag. Proof. high_push. Qed.
Lemma high_Language : high_rejects Language. Proof. high_push. Qed.
Lemma high_Primary : high_rejects Primary. Proof. high_push. Qed.
Lemma high_Extlang : high_rejects Extlang. Proof. high_push. Qed.
Lemma high_ExtlangTag : high_rejects ExtlangTag. Proof. high_push. Qed.
Lemma high_Script : high_rejects Script. Proof. high_push. Qed.
Lemma high_Region : high_rejects Region. Proof. high_push. Qed.
Lemma high_Variant : high_rejects Variant. Proof. high_push. Qed.
Lemma high_Variants : high_rejects Variants. Proof. high_push. Qed.
Lemma high_Extension : high_rejects Extension. Proof. high_push. Qed.
Lemma high_ExtensionSubtag : high_rejects ExtensionSubtag. Proof. high_push. Qed.
Lemma high_Extensions : high_rejects Extensions. Proof. high_push. Qed.

(** * 2. [validate_bytes] is the run of the automaton, for any decoder meeting the contract *)

Lemma decode_utf8_char_ok : decoder_ok decode_utf8_char.
Proof.
  intros s i b Hb. unfold decode_utf8_char. rewrite Hb. cbv zeta. split; intros H.
  - destruct (N.ltb_spec (code b) 128); [reflexivity|lia].
  - destruct (N.ltb_spec (code b) 128); [lia|].
    destruct ((194 <=? code b) && (code b <=? 223))%N eqn:E1.
    { apply andb_true_iff in E1 as [E1 _]. apply N.leb_le in E1.
      destruct (cont s (i + 1)); auto. lia. }
    destruct ((224 <=? code b) && (code b <=? 239))%N eqn:E2.
    { destruct (cont s (i + 1)), (cont s (i + 2)); auto.
      match goal with |- context [if ?x then _ else _] => destruct x eqn:E3 end; auto.
      apply orb_false_iff in E3 as [E3 _]. apply N.ltb_ge in E3. lia. }
    destruct ((240 <=? code b) && (code b <=? 244))%N eqn:E3; auto.
    destruct (cont s (i + 1)), (cont s (i + 2)), (cont s (i + 3)); auto.
    match goal with |- context [if ?x then _ else _] => destruct x eqn:E4 end; auto.
    apply orb_false_iff in E4 as [E4 _]. apply N.ltb_ge in E4. lia.
Qed.

Lemma skipn_nth {X} (s : list X) : forall i, i < length s ->
  exists b, nth_error s i = Some b /\ skipn i s = b :: skipn (S i) s.
Proof.
  induction s as [|x s IH]; intros [|i] H; simpl in H; try lia.
  - exists x; auto.
  - destruct (IH i) as (b & H1 & H2); [lia|]. exists b. auto.
Qed.

Lemma validate_loop_run d A (Hd : decoder_ok d) (HA : high_rejects A) s :
  forall fuel i q, length s - i <= fuel -> validate_loop d A fuel s i q = Ret (run A q (skipn i s)).
Proof.
  induction fuel as [|fuel IH]; intros i q Hf; cbn [validate_loop];
    destruct (Nat.ltb_spec i (length s)) as [Hi|Hi]; try lia.
  - rewrite skipn_all2 by lia. reflexivity.
  - destruct (skipn_nth s i Hi) as (b & Hb & Hs). rewrite Hs. cbn [run].
    destruct (Hd s i b Hb) as [Hlow Hhigh].
    destruct (N.ltb_spec (code b) 128) as [Hc|Hc].
    + rewrite (Hlow Hc). destruct (push A q (code b)) as [q'|]; [|reflexivity].
      rewrite IH by lia. rewrite Nat.add_1_r. reflexivity.
    + rewrite (HA q _ Hc). specialize (Hhigh Hc).
      destruct (d s i) as [[c len]|]; [|reflexivity]. rewrite (HA q _ Hhigh). reflexivity.
  - rewrite skipn_all2 by lia. reflexivity.
Qed.

(** Acceptance as a plain boolean. *)
Definition accepts (A : automaton) (s : bytes) : bool := run A initial s.

Theorem validate_with_run d A s : decoder_ok d -> high_rejects A ->
  validate_with d A s = Ret (accepts A s).
Proof.
  intros Hd HA. unfold validate_with. rewrite validate_loop_run by (auto; lia). reflexivity.
Qed.

Theorem validate_run A s : high_rejects A -> validate A s = Ret (accepts A s).
Proof. apply validate_with_run, decode_utf8_char_ok. Qed.

Lemma new_run A s : high_rejects A -> new A s = Ret (if accepts A s then Ok s else Err s).
Proof. intros H. unfold new. rewrite validate_run by auto. reflexivity. Qed.

Lemma new_is_ok_run A s : high_rejects A -> new_is_ok A s = Ret (accepts A s).
Proof. intros H. unfold new_is_ok. rewrite new_run by auto. cbn. destruct (accepts A s); reflexivity. Qed.

(** * 3. The automata accept exactly their productions *)

Ltac by_equiv := intros s; apply (equiv_sound _ _ rep_of reps 2000); vm_compute; reflexivity.

Lemma accepts_privateuse s : accepts Privateuse s = true <-> matches abnf_privateuse s.
Proof. revert s; by_equiv. Qed.
Lemma accepts_privateuse_subtag s : accepts PrivateuseSubtag s = true <-> matches abnf_privateuse_subtag s.
Proof. revert s; by_equiv. Qed.
Lemma accepts_langtag s : accepts Langtag s = true <-> matches abnf_langtag s.
Proof. revert s; by_equiv. Qed.
Lemma accepts_language s : accepts Language s = true <-> matches abnf_language s.
Proof. revert s; by_equiv. Qed.
Lemma accepts_primary s : accepts Primary s = true <-> matches abnf_primary s.
Proof. revert s; by_equiv. Qed.
Lemma accepts_extlang s : accepts Extlang s = true <-> matches abnf_extlang s.
Proof. revert s; by_equiv. Qed.
Lemma accepts_extlang_tag s : accepts ExtlangTag s = true <-> matches abnf_extlang_tag s.
Proof. revert s; by_equiv. Qed.
Lemma accepts_script s : accepts Script s = true <-> matches abnf_script s.
Proof. revert s; by_equiv. Qed.
Lemma accepts_region s : accepts Region s = true <-> matches abnf_region s.
Proof. revert s; by_equiv. Qed.
Lemma accepts_variant s : accepts Variant s = true <-> matches abnf_variant s.
Proof. revert s; by_equiv. Qed.
Lemma accepts_variants s : accepts Variants s = true <-> matches abnf_variants s.
Proof. revert s; by_equiv. Qed.
Lemma accepts_extension s : accepts Extension s = true <-> matches abnf_extension s.
Proof. revert s; by_equiv. Qed.
Lemma accepts_extension_subtag s : accepts ExtensionSubtag s = true <-> matches abnf_extension_subtag s.
Proof. revert s; by_equiv. Qed.
Lemma accepts_extensions s : accepts Extensions s = true <-> matches abnf_extensions s.
Proof. revert s; by_equiv. Qed.
