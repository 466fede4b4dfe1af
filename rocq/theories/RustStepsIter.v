(** Asking an iterator for its next item costs in proportion to the item, not to the text. *)
From Verif Require Import Base Validate Utils Normal NoOverflow Newtypes Spec Direct Parse Scan Access Iter.
From Verif Require Import RustSyntax RustEval RustCount RustProgram RustRefine RustGrammar RustValidate RustNormal RustAccess
  RustTags RustSteps RustStepsNormal.
Import Base.
Open Scope string_scope.
Open Scope nat_scope.
Open Scope list_scope.

(** * 1. Segments *)

Lemma segment_end_after s : forall g i e, find_segment_end_loop g s i = Ret e -> i <= e.
Proof.
  induction g as [|g IH]; intros i e; cbn [find_segment_end_loop];
    (destruct (i <? length s) eqn:E; [|intros [= <-]; lia]); [discriminate|].
  destruct (index s i) as [b| |]; cbn [bind]; [|discriminate|discriminate].
  destruct (beq b dash); [intros [= <-]; lia|]. intros H. apply IH in H. lia.
Qed.
Lemma segment_start_before s : forall i e, find_segment_start_loop s i = Ret e -> e <= i + 1.
Proof.
  induction i as [|i IH]; intros e; cbn [find_segment_start_loop];
    (destruct (index s _) as [b| |]; cbn [bind]; [|discriminate|discriminate]);
    (destruct (beq b dash); [intros [= <-]; lia|]).
  - intros [= <-]. lia.
  - intros H. apply IH in H. lia.
Qed.
Lemma find_segment_end_near {M} n s off x :
  60 + length s <= n -> length s + 4 <= M -> find_segment_end s off = Ret x ->
  priced M n (VPath ["find_segment_end"]) [VStr s; VNat off] (Ret (VNat x, [])) (60 * (x - off) + 60).
Proof.
  intros Hn HM Hx. apply priced_intro; [rewrite find_segment_end_src by lia; now rewrite Hx|]. intro s0.
  unfold find_segment_end in Hx. fuel n 50. kenter. krun.
  match goal with
  | |- context [keval M crate ?n0 (?i0 :: ?e) (EWhile ?c ?b) ?t0] =>
    rest (keval M crate n0 (i0 :: e) (EWhile c b) t0) ltac:(fun Q =>
    assert (forall g i n t, 30 + g <= n -> find_segment_end_loop g s i = Ret x ->
      Q (keval M crate n (("i", VNat i) :: e) (EWhile c b) t) <= 60 * (x - i) + 40 + t) as L)
  end.
  { cbv beta. induction g as [|g IH]; intros i n t Hn' Hg; fuel n 30; kunroll; cbn [find_segment_end_loop] in Hg.
    - destruct (i <? length s); [discriminate|]. over.
    - destruct (i <? length s) eqn:?; krun; [|over].
      destruct (index s i) as [b| |] eqn:?; cbn [bind] in Hg; [|discriminate|discriminate]. krun.
      destruct (beq b dash) eqn:B; unfold dash in B; rewrite B; krun; [over|].
      pose proof (segment_end_after _ _ _ _ Hg).
      eapply Nat.le_trans; [apply IH; [lia|exact Hg]|lia]. }
  eapply Nat.le_trans; [apply (L (length s)); [lia|exact Hx]|lia].
Qed.

Lemma find_segment_start_near {M} n s e x :
  60 + e <= n -> length s + 4 <= M -> find_segment_start s e = Ret x ->
  priced M n (VPath ["find_segment_start"]) [VStr s; VNat e] (Ret (VNat x, [])) (60 * (e - x) + 120).
Proof.
  intros Hn HM Hx. apply priced_intro; [rewrite find_segment_start_src by lia; now rewrite Hx|]. intro s0.
  fuel n 50. kenter. krun.
  destruct e as [|e]; krun; [cbn [Nat.ltb Nat.leb]; over|].
  cbn [Nat.ltb Nat.leb]. krun. cbn [Nat.leb Nat.sub]. krun. rewrite ?Nat.sub_0_r. cbn [find_segment_start] in Hx.
  match goal with
  | |- context [keval M crate ?n0 (?i0 :: ?e) (ELoop ?b) ?t0] =>
    rest (keval M crate n0 (i0 :: e) (ELoop b) t0) ltac:(fun Q =>
    assert (forall i n t, 30 + i <= n -> find_segment_start_loop s i = Ret x ->
      Q (keval M crate n (("i", VNat i) :: e) (ELoop b) t) <= 60 * (i + 1 - x) + 60 + t) as L)
  end.
  { cbv beta. induction i as [|i IH]; intros n t Hn' Hi; fuel n 30; kunroll; cbn [find_segment_start_loop] in Hi;
      (destruct (index s _) as [b| |] eqn:?; cbn [bind] in Hi; [|discriminate|discriminate]); krun;
      destruct (beq b dash) eqn:B; unfold dash in B; rewrite B; krun; try over; try (cbn [Nat.ltb Nat.leb]; over).
    cbn [Nat.ltb Nat.leb]. krun. cbn [Nat.leb Nat.sub]. krun. rewrite ?Nat.sub_0_r.
    pose proof (segment_start_before _ _ _ Hi).
    eapply Nat.le_trans; [apply IH; [lia|exact Hi]|lia]. }
  eapply Nat.le_trans; [apply (L e); [lia|exact Hx]|destruct x; lia].
Qed.

(** * 2. Iterators over segments *)

Definition item (r : option bytes) : nat := match r with Some x => length x | None => 0 end.
Ltac ksegment_near Lsrc f :=
  let Hn := fresh in let HM := fresh in let E := fresh "E" in let SL := fresh "SL" in
  intros Hn HM E; apply priced_intro; [rewrite Lsrc by lia; now rewrite E|]; let s0 := fresh "s0" in intro s0;
  match type of Hn with _ <= ?n => match type of HM with length (it_data ?it) + 4 <= _ => destruct it as [s o]; fuel n 30 end end;
  unfold f in E;
  unfold viter_of; cbn [it_data it_offset] in *; kenter; krun;
  match goal with |- context [?o <? length ?s] => destruct (o <? length s) eqn:? end;
    [|injection E as <- <-; over];
  match type of E with context [find_segment_end ?s ?o] => destruct (find_segment_end s o) as [x| |] eqn:? end;
  cbn [bind] in E; try discriminate E;
  match type of E with context [slice ?s ?o ?e] => destruct (slice s o e) eqn:SL end;
  cbn [bind] in E; try discriminate E; injection E as <- <-; krun;
  uses @find_segment_end_near; pose proof (slice_size _ _ _ _ SL); krun; cbn [item]; rewrite SL; over.

Lemma PrivateUseIter_next_near {M} n it r it' :
  100 + length (it_data it) <= n -> length (it_data it) + 4 <= M -> PrivateUseIter_next it = Ret (r, it') ->
  priced M n (VPath ["PrivateUseIter"; "next"]) [viter_of "PrivateUseIter" it]
    (Ret (voption (vtag PrivateUseSubtagT) r, [viter_of "PrivateUseIter" it'])) (60 * item r + 200).
Proof. ksegment_near (@PrivateUseIter_next_src M) PrivateUseIter_next. Qed.
Lemma ExtensionIter_next_near {M} n it r it' :
  100 + length (it_data it) <= n -> length (it_data it) + 4 <= M -> ExtensionIter_next it = Ret (r, it') ->
  priced M n (VPath ["ExtensionIter"; "next"]) [viter_of "ExtensionIter" it]
    (Ret (voption (vtag ExtensionSubtagT) r, [viter_of "ExtensionIter" it'])) (60 * item r + 200).
Proof. ksegment_near (@ExtensionIter_next_src M) ExtensionIter_next. Qed.
Lemma LanguageExtensionIter_next_near {M} n it r it' :
  100 + length (it_data it) <= n -> length (it_data it) + 4 <= M -> LanguageExtensionIter_next it = Ret (r, it') ->
  priced M n (VPath ["LanguageExtensionIter"; "next"]) [viter_of "LanguageExtensionIter" it]
    (Ret (voption (vtag ExtendedLangTagT) r, [viter_of "LanguageExtensionIter" it'])) (60 * item r + 200).
Proof. ksegment_near (@LanguageExtensionIter_next_src M) LanguageExtensionIter_next. Qed.
Lemma VariantsIter_next_near {M} n it r it' :
  100 + length (v_data it) <= n -> length (v_data it) + 4 <= M -> VariantsIter_next it = Ret (r, it') ->
  priced M n (VPath ["VariantsIter"; "next"]) [vviter it]
    (Ret (voption (vtag VariantT) r, [vviter it'])) (60 * item r + 200).
Proof.
  intros Hn HM E. apply priced_intro; [rewrite VariantsIter_next_src by lia; now rewrite E|]. intro s0.
  destruct it as [s o e]. fuel n 30. unfold VariantsIter_next in E. unfold vviter. cbn [v_data v_offset v_end] in *. kenter. krun.
  destruct (o <? e) eqn:?; [|injection E as <- <-; over].
  destruct (find_segment_end s o) as [x| |] eqn:?; cbn [bind] in E; try discriminate E.
  destruct (slice s o x) eqn:SL; cbn [bind] in E; try discriminate E. injection E as <- <-. krun.
  uses @find_segment_end_near. pose proof (slice_size _ _ _ _ SL). krun. cbn [item]. rewrite SL. over.
Qed.
Lemma VariantsIter_next_back_near {M} n it r it' :
  100 + v_end it <= n -> length (v_data it) + 4 <= M -> VariantsIter_next_back it = Ret (r, it') ->
  priced M n (VPath ["VariantsIter"; "next_back"]) [vviter it]
    (Ret (voption (vtag VariantT) r, [vviter it'])) (60 * item r + 200).
Proof.
  intros Hn HM E. apply priced_intro; [rewrite VariantsIter_next_back_src by lia; now rewrite E|]. intro s0.
  destruct it as [s o e]. fuel n 30. unfold VariantsIter_next_back in E. unfold vviter. cbn [v_data v_offset v_end] in *. kenter. krun.
  destruct (o <? e) eqn:?; [|injection E as <- <-; over].
  destruct (find_segment_start s e) as [x| |] eqn:?; cbn [bind] in E; try discriminate E.
  destruct (slice s x e) eqn:SL; cbn [bind] in E; try discriminate E. injection E as <- <-. krun.
  uses @find_segment_start_near. pose proof (slice_size _ _ _ _ SL). krun. cbn [item]. rewrite SL. krun.
  destruct x as [|x]; cbn [Nat.ltb Nat.leb]; krun; [over|]. cbn [Nat.leb]. over.
Qed.

(** * 3. Extensions *)

(** From [off] on, no nine bytes without a ['-'] among them. *)
Definition short_segments (s : bytes) (off : nat) : Prop :=
  forall o i, off <= o -> o <= i -> i <= length s -> (forall k, o <= k < i -> nth_error s k <> Some dash) -> i <= o + 8.
Lemma index_nth s i b : index s i = Ret b -> nth_error s i = Some b.
Proof. unfold index. destruct (nth_error s i); congruence. Qed.
Lemma list_end_after s f : forall g i o e x, find_list_end_loop g s f i o e = Ret x -> e <= o -> o <= i -> e <= x.
Proof.
  induction g as [|g IH]; intros i o e x; cbn [find_list_end_loop];
    (destruct (i <? length s); [|destruct (slice_from s o) as [sub| |] eqn:S; cbn [bind]; [|discriminate|discriminate];
      apply slice_from_size in S; destruct (f o sub) as [[]| |]; cbn [bind]; try discriminate; intros [= <-]; lia]);
    [discriminate|].
  destruct (index s i) as [b| |]; cbn [bind]; [|discriminate|discriminate].
  destruct (beq b dash); [|intros H L L'; apply IH in H; lia].
  destruct (slice s o i) as [sub| |]; cbn [bind]; [|discriminate|discriminate].
  destruct (f o sub) as [[]| |]; cbn [bind]; try discriminate; intros H L L'; [apply IH in H; lia|]. injection H as <-. lia.
Qed.
Lemma find_list_end_near {M} n s off fv f K x :
  (forall k o sub, K <= k -> length sub <= length s ->
    priced M k fv [VNat o; VStr sub] (lift VBool (f o sub)) (100 * length sub + 300)) ->
  muts crate fv = [] ->
  60 + length s + K <= n -> length s + 4 <= M ->
  short_segments s off -> find_list_end s off f = Ret x ->
  priced M n (VPath ["find_list_end"]) [VStr s; VNat off; fv] (Ret (VNat x, [])) (2000 * (x + 1 - off) + 2000).
Proof.
  intros Hf Hm Hn HM Sh Hx.
  apply priced_intro; [rewrite (find_list_end_src n s off fv f K); auto; [now rewrite Hx|intros; apply Hf; auto]|]. intro s0.
  unfold find_list_end in Hx. fuel n 50. kenter. krun.
  match goal with
  | |- context [keval M crate ?n0 [?v1; ?v2; ?v3; ?v4; ?v5; ?v6; ?v7] (EWhile ?c ?b) ?t0] =>
    rest (keval M crate n0 [v1; v2; v3; v4; v5; v6; v7] (EWhile c b) t0) ltac:(fun Q =>
    assert (forall g i o e n t, 30 + g + K <= n -> find_list_end_loop g s f i o e = Ret x ->
      off <= o -> e <= o -> o <= i -> o <= e + 1 -> (forall k, o <= k < i -> nth_error s k <> Some dash) ->
      Q (keval M crate n [("end", VNat e); ("i", VNat i); ("bytes", VBytes s); ("string", VStr s);
        ("offset", VNat o); ("f", fv); ("Self", VTy "")] (EWhile c b) t)
      <= 2000 * (x + 1 - o) + 60 * (o + 8 - i) + 1300 + t) as L)
  end.
  { cbv beta.
    assert (Fin : forall o i sub, off <= o -> o <= i -> length s <= i -> slice_from s o = Ret sub ->
      (forall k, o <= k < i -> nth_error s k <> Some dash) -> length sub <= 8).
    { intros o i sub Ho Hi Hl S D. apply slice_from_size in S. specialize (Sh o (length s)). 
      enough (length s <= o + 8) by lia. apply Sh; [lia|lia|lia|]. intros k Hk. apply D. lia. }
    induction g as [|g IH]; intros i o e n t Hn' Hg Ho He Hi Hoe D; fuel n 30; kunroll; cbn [find_list_end_loop] in Hg.
    - destruct (i <? length s) eqn:E; [discriminate|apply Nat.ltb_ge in E]. krun.
      destruct (slice_from s o) as [sub| |] eqn:S; [|over|over]. krun.
      pose proof (Fin o i sub Ho Hi E S D). apply slice_from_size in S as [S S']. uses Hf.
      destruct (f o sub) as [[]| |]; over.
    - destruct (i <? length s) eqn:E; krun.
      + destruct (index s i) as [b| |] eqn:Ix; cbn [bind] in Hg; [|discriminate|discriminate]. krun.
        apply Nat.ltb_lt in E as E'.
        assert (i <= o + 8) by (apply Sh; auto; lia).
        destruct (beq b dash) eqn:B; unfold dash in B; rewrite B; krun.
        * destruct (slice s o i) as [sub| |] eqn:S; cbn [bind] in Hg; [|discriminate|discriminate]. krun.
          apply slice_size in S as [S S']. uses Hf.
          destruct (f o sub) as [[]| |]; cbn [bind] in Hg; krun; [|over|over|over].
          pose proof (list_end_after _ _ _ _ _ _ _ Hg ltac:(lia) ltac:(lia)).
          eapply Nat.le_trans; [apply IH; [lia|exact Hg|lia|lia|lia|lia|intros; lia]|lia].
        * assert (forall k, o <= k < i + 1 -> nth_error s k <> Some dash) as D'.
          { intros k Hk. destruct (Nat.eq_dec k i) as [->|]; [|apply D; lia]. rewrite (index_nth _ _ _ Ix). intros [= ->].
            discriminate B. }
          assert (i + 1 <= o + 8) by (apply Sh; auto; lia).
          eapply Nat.le_trans; [apply IH; [lia|exact Hg|lia|lia|lia|lia|exact D']|lia].
      + apply Nat.ltb_ge in E.
        destruct (slice_from s o) as [sub| |] eqn:S; [|over|over]. krun.
        pose proof (Fin o i sub Ho Hi E S D). apply slice_from_size in S as [S S']. uses Hf.
        destruct (f o sub) as [[]| |]; over. }
  eapply Nat.le_trans; [apply (L (length s)); [lia|exact Hx|lia|lia|lia|lia|intros; lia]|lia].
Qed.
Lemma ExtensionsIter_next_near {M} n it r it' :
  250 + 2 * length (it_data it) <= n -> length (it_data it) + 4 <= M -> short_segments (it_data it) (it_offset it + 2) ->
  ExtensionsIter_next it = Ret (r, it') ->
  priced M n (VPath ["ExtensionsIter"; "next"]) [viter_of "ExtensionsIter" it]
    (Ret (voption (vtag ExtensionT) r, [viter_of "ExtensionsIter" it'])) (2000 * item r + 2400).
Proof.
  intros Hn HM Sh E. apply priced_intro; [rewrite ExtensionsIter_next_src by lia; now rewrite E|]. intro s0.
  destruct it as [s o]. fuel n 30. unfold ExtensionsIter_next in E. unfold viter_of. cbn [it_data it_offset] in *. kenter. krun.
  destruct (o <? length s) eqn:?; [|injection E as <- <-; over]. cbv zeta in E.
  destruct (find_list_end s (o + 2) _) as [x| |] eqn:Fe; cbn [bind] in E; try discriminate E.
  destruct (slice s o x) eqn:SL; cbn [bind] in E; try discriminate E. injection E as <- <-. krun.
  lazymatch goal with
  | |- ?l <= _ =>
    let h := khead l in
    lazymatch h with
    | kcall ?M0 crate ?n ?f ?a ?t =>
      eassert (priced M0 n f a _ _) as H by (eapply (@find_list_end_near M0 _ _ _ _ (fun (_ : nat) segment => new_is_ok ExtensionSubtag segment) (120 + length s));
        [ intros k o' sub Hk Hs; apply priced_intro;
          [fuel k 20; enter; run; is_ok_closure ExtensionSubtagT | intro; fuel k 20; kenter; krun; kis_ok ExtensionSubtagT]
        | reflexivity | lia | lia | exact Sh | exact Fe ]);
      destruct (priced_use _ _ _ _ _ _ t H) as (c & E & B); rewrite E; clear E H
    end
  end.
  pose proof (slice_size _ _ _ _ SL). krun. cbn [item]. rewrite SL. over.
Qed.

Lemma short_joined p : forall l, forallb seg_ok l = true -> forall q, short_segments ((p ++ q) ++ join l) (length (p ++ q)).
Proof.
  induction l as [|x l IH]; intros H q o i Ho Hi Hl D.
  - cbn in Hl. rewrite app_nil_r in Hl. lia.
  - cbn [forallb] in H. apply andb_prop in H as [Hx H]. rewrite join_cons in *.
    assert (Lx : length x <= 8).
    { unfold seg_ok, sized in Hx. apply andb_prop in Hx as [Hx _]. apply andb_prop in Hx as [_ Hx]. now apply Nat.leb_le. }
    destruct l as [|y l]; [cbn [dtail flat_map] in *; rewrite !app_length in *; cbn in Hl; lia|].
    rewrite dtail_join in * by discriminate.
    replace ((p ++ q) ++ x ++ dash :: join (y :: l)) with ((p ++ (q ++ x ++ [dash])) ++ join (y :: l)) in *
      by (rewrite <- !app_assoc; reflexivity).
    destruct (Nat.le_gt_cases (length (p ++ q ++ x ++ [dash])) o) as [G|G]; [now apply (IH H (q ++ x ++ [dash]))|].
    destruct (Nat.le_gt_cases i (length ((p ++ q) ++ x))) as [G'|G']; [rewrite !app_length in *; lia|].
    exfalso. apply (D (length ((p ++ q) ++ x))).
    + rewrite !app_length in *. cbn [length] in *. lia.
    + replace ((p ++ q ++ x ++ [dash]) ++ join (y :: l)) with (((p ++ q) ++ x) ++ dash :: join (y :: l))
        by (rewrite <- !app_assoc; reflexivity).
      rewrite nth_error_app2, Nat.sub_diag by lia. reflexivity.
Qed.
Lemma at_exts_short it l : at_exts it l -> short_segments (it_data it) (it_offset it + 2).
Proof.
  intros (_ & Ok & H) o i Ho Hi Hl D. destruct l as [|e l]; [lia|]. destruct H as (p & Hd & Hp).
  pose proof (short_joined p (flat_map extension_parts (e :: l)) (segs_extensions _ Ok) []) as S. rewrite app_nil_r in S.
  unfold extensions_text in Hd. rewrite Hd in *. apply S; auto. lia.
Qed.
