(** The edits with which a call gives no result: a subtraction below zero, which panics or wraps as the crate is built, or a
    loop without end. *)
From Verif Require Import Base GrammarRs Validate Utils Grandfathered Normal LangTag Newtypes Derived Spec Observe.
From Verif Require Import RustText RustSyntax RustEval RustProgram RustRefine RustGrammar RustValidate RustNormal RustAccess
  RustTags RustLib RustSays RustClient RustFuel RustBranches RustEdits.
Import Base.
Open Scope string_scope.
Open Scope nat_scope.
Open Scope list_scope.

Definition with_calls : list ((entry * nat * list entry) * option (list string * list nat)) :=
  combine (entry_edits in_grammar (fns crate)) edit_witnesses.
Definition silent_edits : list ((entry * nat * list entry) * option (list string * list nat)) :=
  filter (fun x => silent_edit (fst (fst (fst x))) (snd (fst (fst x)))) with_calls.
(** The edited program, the function and the arguments. *)
Definition silent_call (x : (entry * nat * list entry) * option (list string * list nat)) : program * list string * list value :=
  match snd x with
  | Some w => match client_call w with Some (args, _) => (with_fns (snd (fst x)), fst w, args) | None => (with_fns [], [], []) end
  | None => (with_fns [], [], [])
  end.
Definition silent_program (k : nat) : program :=
  match nth_error silent_edits k with Some x => fst (fst (silent_call x)) | None => Program [] [] [] [] [] end.
Definition silent_0 : program := Eval vm_compute in silent_program 0.
Definition silent_1 : program := Eval vm_compute in silent_program 1.
Definition silent_2 : program := Eval vm_compute in silent_program 2.
Definition silent_3 : program := Eval vm_compute in silent_program 3.
Definition silent_4 : program := Eval vm_compute in silent_program 4.
Definition silent_5 : program := Eval vm_compute in silent_program 5.
Definition silent_6 : program := Eval vm_compute in silent_program 6.
Definition silent_7 : program := Eval vm_compute in silent_program 7.
Definition silent_calls : list (program * list string * list value) :=
  [ (silent_0, ["VariantsIter"; "next_back"], [vviter (VIter (bs "abcde-fghij") 0 5)]);
    (silent_1, ["Extensions"; "get"], [vtag ExtensionsT []; vsingleton "a"%byte]);
    (silent_2, ["Extensions"; "get"], [vtag ExtensionsT (bs "a-bcd-ef-b-cd"); vsingleton "b"%byte]);
    (silent_3, ["Variants"; "last"], [vtag VariantsT (bs "abcde")]);
    (silent_4, ["Variants"; "last"], [vtag VariantsT (bs "abcde")]);
    (silent_5, ["ExtensionSubtag"; "cmp"], [vtag ExtensionSubtagT (bs "bc"); vtag ExtensionSubtagT (bs "bcd")]);
    (silent_6, ["ExtensionSubtag"; "cmp"], [vtag ExtensionSubtagT (bs "bcd"); vtag ExtensionSubtagT (bs "bc")]);
    (silent_7, ["LangTag"; "partial_cmp"],
      [vtag LangTagT (bs "fr-Latn-FR-abcde-a-bcd-x-e"); vtag LangTagT (bs "fr-Latn-FR-abcde-a-bcd-x-e")]) ].
Lemma silent_calls_eq : map silent_call silent_edits = silent_calls.
Proof. vm_cast_no_check (eq_refl silent_calls). Qed.

Definition silent (x : program * list string * list value) : Prop :=
  forall n, call 1000 (fst (fst x)) n (VPath (snd (fst x))) (snd x) = OutOfFuel.
(** More fuel does not take a result away, so that it is enough to look at much. *)
Lemma silent_intro Q f args : (forall k, call 1000 Q (200 + k) (VPath f) args = OutOfFuel) -> silent (Q, f, args).
Proof.
  intros H n. cbn [fst snd]. destruct (upto_call Q 1000 1000 n (200 + n) (VPath f) args ltac:(lia) ltac:(lia)) as [E|E]; [exact E|].
  now rewrite E.
Qed.
(** A loop whose body leaves the variables as they were. *)
Lemma loop_silent M Q e b v : (forall k, eval M Q (30 + k) e b = Ret (e, Done v)) -> forall n, eval M Q n e (ELoop b) = OutOfFuel.
Proof.
  intros H. induction n as [|n IH]; [reflexivity|]. cbn [eval eval_step]. unfold looping.
  destruct (upto_run Q M M (le_n M) n (30 + n) ltac:(lia)) as [U _]. destruct (U e b) as [X|X]; rewrite X; [reflexivity|].
  rewrite H. cbn [bind snd fst]. exact IH.
Qed.

Lemma silent_0_silent : silent (silent_0, ["VariantsIter"; "next_back"], [vviter (VIter (bs "abcde-fghij") 0 5)]).
Proof. apply silent_intro. intros k. vm_compute. reflexivity. Qed.
Lemma silent_1_silent : silent (silent_1, ["Extensions"; "get"], [vtag ExtensionsT []; vsingleton "a"%byte]).
Proof. apply silent_intro. intros k. vm_compute. reflexivity. Qed.
Lemma silent_2_silent : silent (silent_2, ["Extensions"; "get"], [vtag ExtensionsT (bs "a-bcd-ef-b-cd"); vsingleton "b"%byte]).
Proof. apply silent_intro. intros k. vm_compute. reflexivity. Qed.
Lemma silent_3_silent : silent (silent_3, ["Variants"; "last"], [vtag VariantsT (bs "abcde")]).
Proof. apply silent_intro. intros k. vm_compute. reflexivity. Qed.
Lemma silent_7_silent : silent (silent_7, ["LangTag"; "partial_cmp"],
  [vtag LangTagT (bs "fr-Latn-FR-abcde-a-bcd-x-e"); vtag LangTagT (bs "fr-Latn-FR-abcde-a-bcd-x-e")]).
Proof. apply silent_intro. intros k. vm_compute. reflexivity. Qed.

Lemma loop_next M Q e b e' v : (forall k, eval M Q (60 + k) e b = Ret (e', Done v)) ->
  (forall n, eval M Q n e' (ELoop b) = OutOfFuel) -> forall n, eval M Q n e (ELoop b) = OutOfFuel.
Proof.
  intros H H'. intros [|n]; [reflexivity|]. cbn [eval eval_step]. unfold looping.
  destruct (upto_run Q M M (le_n M) n (60 + n) ltac:(lia)) as [U _]. destruct (U e b) as [X|X]; rewrite X; [reflexivity|].
  rewrite H. cbn [bind snd fst]. apply H'.
Qed.
Ltac endless :=
  first [ eapply loop_silent; intros ?k; vm_compute; reflexivity
        | eapply loop_next; [intros ?k; vm_compute; reflexivity|]; endless ].
Ltac at_loop :=
  match goal with |- context [eval ?M ?Q ?n ?e (ELoop ?b)] =>
    let H := fresh in assert (H : forall fuel, eval M Q fuel e (ELoop b) = OutOfFuel); [endless|rewrite H; reflexivity] end.
Lemma silent_5_silent : silent (silent_5, ["ExtensionSubtag"; "cmp"], [vtag ExtensionSubtagT (bs "bc"); vtag ExtensionSubtagT (bs "bcd")]).
Proof. apply silent_intro. intros k. enter. run. enter. run. at_loop. Qed.
Lemma silent_6_silent : silent (silent_6, ["ExtensionSubtag"; "cmp"], [vtag ExtensionSubtagT (bs "bcd"); vtag ExtensionSubtagT (bs "bc")]).
Proof. apply silent_intro. intros k. enter. run. enter. run. at_loop. Qed.
Lemma silent_4_silent : silent (silent_4, ["Variants"; "last"], [vtag VariantsT (bs "abcde")]).
Proof.
  apply silent_intro. intros k. enter. run. enter. run. enter. run.
  change (List.length (bs "abcde")) with 5. enter. run. change (0 <? 5) with true. run. enter. run. 
  change (0 <? 5) with true. run. change (1 <=? 5) with true. change (5 - 1) with 4. run. at_loop.
Qed.

Lemma all_silent x : In x silent_edits -> silent (silent_call x).
Proof.
  intros I. apply (in_map silent_call) in I. rewrite silent_calls_eq in I. unfold silent_calls in I.
  repeat (destruct I as [<-|I];
    [first [exact silent_0_silent|exact silent_1_silent|exact silent_2_silent|exact silent_3_silent|exact silent_4_silent
           |exact silent_5_silent|exact silent_6_silent|exact silent_7_silent]|]).
  destruct I.
Qed.
