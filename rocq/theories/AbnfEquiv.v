(** The automata accept exactly what the text of grammar.abnf derives: the grammar read from the file is
    expanded into regular expressions, which the checker of RegexEquiv.v compares with the automata. *)
From Verif Require Import Base GrammarRs Validate Utils Grandfathered Normal LangTag Newtypes Derived Spec Observe
  RegexEquiv Accept Case AcceptTag Grammar Abnf AbnfText.

(** * 1. Expansion *)

Fixpoint expand (fuel : nat) (G : grammar) (e : elem) : option re :=
  match fuel with
  | O => None
  | S fuel' =>
    match e with
    | Name n => match rule G n with Some e' => expand fuel' G e' | None => None end
    | Quoted l => Some (lit_bytes l)
    | Range lo hi => Some (Cls [(lo, hi)])
    | Repeat lo hi e' =>
      match expand fuel' G e' with
      | Some r =>
        match hi with
        | Some h => if h <? lo then Some Void else Some (rep lo h r)
        | None => Some (Cat (times lo r) (Star r))
        end
      | None => None
      end
    | Sequence a b =>
      match expand fuel' G a, expand fuel' G b with Some x, Some y => Some (Cat x y) | _, _ => None end
    | Choice a b =>
      match expand fuel' G a, expand fuel' G b with Some x, Some y => Some (Alt x y) | _, _ => None end
    end
  end.

(** * 2. Expansion keeps the meaning *)

Lemma times_add r j : forall k s, matches (Cat (times j r) (times k r)) s <-> matches (times (j + k) r) s.
Proof.
  induction j as [|j IH]; intros k s; cbn [times plus].
  - rewrite matches_Cat. split.
    + intros (u & v & -> & H & H'). apply matches_Eps in H as ->. exact H'.
    + intros H. exists [], s. repeat split; auto. constructor.
  - cbn [Nat.add times]. rewrite !matches_Cat. split.
    + intros (u & v & -> & H & H'). apply matches_Cat in H as (u1 & u2 & -> & H1 & H2).
      exists u1, (u2 ++ v). rewrite app_assoc. repeat split; auto. apply IH. constructor; auto.
    + intros (u & v & -> & H & H'). apply IH in H'. apply matches_Cat in H' as (v1 & v2 & -> & H1 & H2).
      exists (u ++ v1), v2. rewrite app_assoc. repeat split; auto. constructor; auto.
Qed.

Lemma upto_times r n : forall s, matches (upto n r) s <-> exists k, k <= n /\ matches (times k r) s.
Proof.
  induction n as [|n IH]; intros s; cbn [upto].
  - split.
    + intros H. exists 0. split; auto.
    + intros (k & Hk & H). assert (k = 0) as -> by lia. exact H.
  - unfold opt. rewrite matches_Alt, matches_Eps, matches_Cat. split.
    + intros [(u & v & -> & H & H')| ->].
      * apply IH in H' as (k & Hk & H'). exists (S k). split; [lia|]. cbn [times]. constructor; auto.
      * exists 0. split; [lia|]. constructor.
    + intros ([|k] & Hk & H); cbn [times] in H.
      * right. apply matches_Eps in H. exact H.
      * left. apply matches_Cat in H as (u & v & -> & H & H'). exists u, v. repeat split; auto.
        apply IH. exists k. split; [lia|auto].
Qed.

Lemma star_times r s : matches (Star r) s <-> exists k, matches (times k r) s.
Proof.
  split.
  - intros H. remember (Star r) as q eqn:E. induction H; try discriminate.
    + exists 0. constructor.
    + injection E as ->. destruct (IHmatches2 eq_refl) as (k & Hk). exists (S k). cbn [times]. constructor; auto.
  - intros (k & H). revert s H. induction k as [|k IH]; intros s H; cbn [times] in H.
    + apply matches_Eps in H as ->. constructor.
    + apply matches_Cat in H as (u & v & -> & H & H'). constructor; auto.
Qed.

Lemma copies_times G e r (H : forall s, derives G e s <-> matches r s) k :
  forall s, copies G e k s <-> matches (times k r) s.
Proof.
  induction k as [|k IH]; intros s; cbn [times].
  - rewrite matches_Eps. split; [intros C; inversion C; auto|intros ->; constructor].
  - rewrite matches_Cat. split.
    + intros C. inversion C; subst. exists s0, t. repeat split; auto; [apply H|apply IH]; auto.
    + intros (u & v & -> & Hu & Hv). constructor; [apply H|apply IH]; auto.
Qed.

Theorem expand_derives fuel G : forall e r, expand fuel G e = Some r -> forall s, derives G e s <-> matches r s.
Proof.
  induction fuel as [|fuel IH]; intros e r E s; [discriminate|]. destruct e; cbn [expand] in E.
  - destruct (rule G n) as [e'|] eqn:R; [|discriminate]. rewrite <- (IH _ _ E s). split.
    + intros D. inversion D; subst. congruence.
    + intros D. econstructor; eauto.
  - injection E as <-. rewrite matches_lit_bytes. split; [intros D; inversion D; auto|intros D; constructor; auto].
  - injection E as <-. rewrite matches_Cls. split.
    + intros D. inversion D; subst. exists b. split; auto. unfold in_cls. cbn.
      apply orb_true_iff; left. apply andb_true_iff; split; apply N.leb_le; auto.
    + intros (b & -> & C). unfold in_cls in C. cbn in C. rewrite orb_false_r in C.
      apply andb_true_iff in C as [C1 C2]. apply N.leb_le in C1, C2. constructor; auto.
  - destruct (expand fuel G e) as [x|] eqn:X; [|discriminate].
    pose proof (copies_times G e x (IH _ _ X)) as C.
    assert (D : derives G (Repeat lo hi e) s <->
      exists k, lo <= k /\ (forall h, hi = Some h -> k <= h) /\ matches (times k x) s).
    { split.
      - intros D. inversion D; subst. exists k. repeat split; auto. apply C; auto.
      - intros (k & K1 & K2 & K3). econstructor; eauto. apply C; auto. }
    rewrite D. destruct hi as [h|].
    + destruct (h <? lo) eqn:L; injection E as <-.
      * apply Nat.ltb_lt in L. rewrite matches_Void. split; [|tauto].
        intros (k & K1 & K2 & _). specialize (K2 h eq_refl). lia.
      * apply Nat.ltb_ge in L. unfold rep. rewrite matches_Cat. split.
        -- intros (k & K1 & K2 & K3). specialize (K2 h eq_refl).
           replace k with (lo + (k - lo)) in K3 by lia. apply times_add, matches_Cat in K3 as (u & v & -> & U & W).
           exists u, v. repeat split; auto. apply upto_times. exists (k - lo). split; [lia|auto].
        -- intros (u & v & -> & U & W). apply upto_times in W as (k & K & W). exists (lo + k).
           split; [lia|]. split; [intros h' [= <-]; lia|]. apply times_add. constructor; auto.
    + injection E as <-. rewrite matches_Cat. split.
      * intros (k & K1 & _ & K3).
        replace k with (lo + (k - lo)) in K3 by lia. apply times_add, matches_Cat in K3 as (u & v & -> & U & W).
        exists u, v. repeat split; auto. apply star_times. eauto.
      * intros (u & v & -> & U & W). apply star_times in W as (k & W). exists (lo + k).
        split; [lia|]. split; [discriminate|]. apply times_add. constructor; auto.
  - destruct (expand fuel G e1) as [x|] eqn:X; [|discriminate].
    destruct (expand fuel G e2) as [y|] eqn:Y; [|discriminate]. injection E as <-. rewrite matches_Cat. split.
    + intros D. inversion D; subst. exists s0, t. repeat split; auto; [apply (IH _ _ X)|apply (IH _ _ Y)]; auto.
    + intros (u & v & -> & U & W). constructor; [apply (IH _ _ X)|apply (IH _ _ Y)]; auto.
  - destruct (expand fuel G e1) as [x|] eqn:X; [|discriminate].
    destruct (expand fuel G e2) as [y|] eqn:Y; [|discriminate]. injection E as <-. rewrite matches_Alt. split.
    + intros D. inversion D; subst; [left; apply (IH _ _ X)|right; apply (IH _ _ Y)]; auto.
    + intros [U|U]; [apply d_choice_l, (IH _ _ X)|apply d_choice_r, (IH _ _ Y)]; auto.
Qed.

(** * 3. The grammar of the file *)

Definition file_grammar : grammar := match read_abnf grammar_abnf with Some G => G | None => [] end.
Lemma file_read : read_abnf grammar_abnf = Some file_grammar.
Proof. vm_compute. reflexivity. Qed.

Definition file_re (name : string) : re :=
  match expand 40 (file_grammar ++ core_rules) (Name (bs name)) with Some r => r | None => Void end.

Definition expands (name : string) : bool :=
  match expand 40 (file_grammar ++ core_rules) (Name (bs name)) with Some _ => true | None => false end.

Lemma derived_re name : expands name = true ->
  forall s, matches (file_re name) s <-> derived_from grammar_abnf name s.
Proof.
  unfold expands, file_re, derived_from. intros X s.
  destruct (expand 40 (file_grammar ++ core_rules) (Name (bs name))) as [r|] eqn:E; [|discriminate].
  pose proof (expand_derives _ _ _ _ E s) as D. rewrite file_read. split.
  - intros M. exists file_grammar. split; [reflexivity|]. apply D. exact M.
  - intros (G & [= <-] & M). apply D. exact M.
Qed.

(** The partition of RegexEquiv.v with x and X apart (the file has no class with both). *)
Definition file_rep_of (c : N) : N := if (c =? 88)%N then 88%N else rep_of c.
Definition file_reps : list N := 88%N :: reps.

Lemma file_decides A name : high_rejects A -> expands name = true ->
  equiv A (file_re name) file_rep_of file_reps 2000 = true -> automaton_decides A (derived_from grammar_abnf name).
Proof.
  intros H X E. apply (decides_iff A (matches (file_re name)) _ (derived_re name X)).
  apply (decides_accepts A _ H). intros s. exact (equiv_sound _ _ file_rep_of file_reps 2000 E s).
Qed.

Ltac by_file H := apply file_decides; [exact H|vm_compute; reflexivity|vm_compute; reflexivity].

Lemma file_productions :
  automaton_decides Privateuse (derived_from grammar_abnf "privateuse") /\
  automaton_decides PrivateuseSubtag (derived_from grammar_abnf "privateuse-subtag") /\
  automaton_decides Langtag (derived_from grammar_abnf "langtag") /\
  automaton_decides Language (derived_from grammar_abnf "language") /\
  automaton_decides Primary (derived_from grammar_abnf "primary") /\
  automaton_decides Extlang (derived_from grammar_abnf "extlang") /\
  automaton_decides ExtlangTag (derived_from grammar_abnf "extlang-tag") /\
  automaton_decides Script (derived_from grammar_abnf "script") /\
  automaton_decides Region (derived_from grammar_abnf "region") /\
  automaton_decides Variant (derived_from grammar_abnf "variant") /\
  automaton_decides Variants (derived_from grammar_abnf "variants") /\
  automaton_decides Extension (derived_from grammar_abnf "extension") /\
  automaton_decides ExtensionSubtag (derived_from grammar_abnf "extension-subtag") /\
  automaton_decides Extensions (derived_from grammar_abnf "extensions").
Proof.
  split; [by_file high_Privateuse|]. split; [by_file high_PrivateuseSubtag|].
  split; [by_file high_Langtag|]. split; [by_file high_Language|]. split; [by_file high_Primary|].
  split; [by_file high_Extlang|]. split; [by_file high_ExtlangTag|]. split; [by_file high_Script|].
  split; [by_file high_Region|]. split; [by_file high_Variant|]. split; [by_file high_Variants|].
  split; [by_file high_Extension|]. split; [by_file high_ExtensionSubtag|by_file high_Extensions].
Qed.

(** [Language-Tag] itself: its three alternatives. *)
Lemma file_tag_shape : file_re "Language-Tag" =
  Alt (file_re "langtag") (Alt (file_re "privateuse") (file_re "grandfathered")).
Proof. vm_compute. reflexivity. Qed.
Lemma file_grandfathered_shape : file_re "grandfathered" = abnf_grandfathered.
Proof. vm_compute. reflexivity. Qed.

Lemma file_tag : automaton_decides LanguageTag (derived_from grammar_abnf "Language-Tag").
Proof.
  apply (decides_iff _ (matches abnf_Language_Tag)); [|exact tag_decides].
  intros s. rewrite <- derived_re by (vm_compute; reflexivity). rewrite file_tag_shape, file_grandfathered_shape.
  unfold abnf_Language_Tag. cbn [alts]. rewrite !matches_Alt.
  assert (L : matches abnf_langtag s <-> matches (file_re "langtag") s).
  { rewrite <- accepts_langtag. apply (equiv_sound _ _ file_rep_of file_reps 2000). vm_compute. reflexivity. }
  assert (P : matches abnf_privateuse s <-> matches (file_re "privateuse") s).
  { rewrite <- accepts_privateuse. apply (equiv_sound _ _ file_rep_of file_reps 2000). vm_compute. reflexivity. }
  rewrite L, P. reflexivity.
Qed.

(** The productions that are not types: the registered tags. *)
Lemma file_irregular s : derived_from grammar_abnf "irregular" s <-> one_of irregular_tags s.
Proof.
  rewrite <- derived_re by (vm_compute; reflexivity).
  replace (file_re "irregular") with abnf_irregular by (vm_compute; reflexivity). apply matches_lits.
Qed.
Lemma file_regular s : derived_from grammar_abnf "regular" s <-> one_of regular_tags s.
Proof.
  rewrite <- derived_re by (vm_compute; reflexivity).
  replace (file_re "regular") with abnf_regular by (vm_compute; reflexivity). apply matches_lits.
Qed.
Lemma file_singleton s : derived_from grammar_abnf "singleton" s <-> exists b, s = [b] /\ singleton_ok b = true.
Proof.
  rewrite <- derived_re by (vm_compute; reflexivity).
  assert (E : forall b, mrun re_machine [file_re "singleton"] [b] = singleton_ok b).
  { intros b. destruct b; vm_compute; reflexivity. }
  assert (F : forall b, matches (file_re "singleton") [b] <-> singleton_ok b = true).
  { intros b. rewrite <- E, re_mrun. unfold any. split.
    - intros M. exists (file_re "singleton"). split; [left; reflexivity|exact M].
    - intros (r & [<-|[]] & M). exact M. }
  split.
  - intros M. assert (exists b, s = [b]) as (b & ->).
    { change (file_re "singleton") with (alts [Cls [(48, 57)]; Cls [(65, 87)]; Cls [(89, 90)]; Cls [(97, 119)];
        Cls [(121, 122)]]%N) in M. apply matches_alts in M as (r & I & M). cbn in I.
      repeat destruct I as [<-|I]; try tauto; apply matches_Cls in M as (b & -> & _); eauto. }
    exists b. split; [reflexivity|]. apply F. exact M.
  - intros (b & -> & S). apply F. exact S.
Qed.
Lemma file_grandfathered s :
  (exists g, Grandfathered_new s = Ret (Ok g)) <-> derived_from grammar_abnf "grandfathered" s.
Proof.
  rewrite <- derived_re by (vm_compute; reflexivity). rewrite file_grandfathered_shape, matches_grandfathered.
  rewrite Grandfathered_new_spec. unfold gf_result.
  destruct (gf_find GRANDFATHERED s) as [h|]; split; intros (g & G); try discriminate; exists h; reflexivity.
Qed.
