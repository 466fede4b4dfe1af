(** The program in which the one branch that C78 finds unused is replaced by a panic: the [else] of [find_segment_start]
    (normal/mod.rs:232-234). *)
From Verif Require Import Base GrammarRs Validate Utils Grandfathered Normal LangTag Newtypes Derived Spec Observe.
From Verif Require Import RustText RustSyntax RustEval RustProgram RustRefine RustGrammar RustValidate RustNormal RustAccess
  RustTags RustLib RustSays RustOracle RustGenerated RustClient RustBranches.
Import Base.
Open Scope string_scope.
Open Scope nat_scope.
Open Scope list_scope.

Definition shut : program :=
  Eval vm_compute in
    match find (fun x => unused (fst (fst x)) (snd (fst x))) (entry_cuts in_grammar (fns crate)) with
    | Some (_, l) => with_fns l
    | None => Program [] [] [] [] []
    end.
Lemma unused_once : map (fun x => with_fns (snd x)) (filter (fun x => unused (fst (fst x)) (snd (fst x))) (entry_cuts in_grammar (fns crate))) = [shut].
Proof. vm_cast_no_check (eq_refl [shut]). Qed.

(** * 1. The functions that do not use it *)

Definition users : list string := [ "find_segment_start"; "next_back"; "last" ].
Definition free (x : string) : bool := negb (existsb (String.eqb x) users).
Definition free_call (f : list string) (args : list value) : bool :=
  forallb free f && forallb (ok_value free (fun _ => true)) args.

Lemma find_fn_free l t m : free m = true -> find_fn (filter (fun e => free (fn_name (en_fn e))) l) t m = find_fn l t m.
Proof.
  intros T. induction l as [|e l IH]; [reflexivity|]. cbn.
  destruct (free (fn_name (en_fn e))) eqn:E; cbn; rewrite IH; [reflexivity|].
  destruct (String.eqb (fn_name (en_fn e)) m) eqn:X; [|now rewrite andb_false_r]. apply String.eqb_eq in X. congruence.
Qed.
Lemma find_qualified_free l t r x m : free m = true ->
  find_qualified (filter (fun e => free (fn_name (en_fn e))) l) t r x m = find_qualified l t r x m.
Proof.
  intros T. induction l as [|e l IH]; [reflexivity|]. cbn.
  destruct (free (fn_name (en_fn e))) eqn:E; cbn; rewrite IH; [reflexivity|].
  destruct (String.eqb (fn_name (en_fn e)) m) eqn:X; [|now rewrite andb_false_r]. apply String.eqb_eq in X. congruence.
Qed.
Definition left_alone : list entry := Eval vm_compute in filter (fun e => free (fn_name (en_fn e))) (fns crate).
Lemma left_alone_crate : filter (fun e => free (fn_name (en_fn e))) (fns crate) = left_alone.
Proof. vm_cast_no_check (eq_refl left_alone). Qed.
Lemma left_alone_shut : filter (fun e => free (fn_name (en_fn e))) (fns shut) = left_alone.
Proof. vm_cast_no_check (eq_refl left_alone). Qed.
Lemma shut_fns : filter (fun e => free (fn_name (en_fn e))) (fns shut) = filter (fun e => free (fn_name (en_fn e))) (fns crate).
Proof. exact (eq_trans left_alone_shut (eq_sym left_alone_crate)). Qed.
Lemma shut_rest : structs shut = structs crate /\ consts shut = consts crate /\ enums shut = enums crate /\
  aliases shut = aliases crate.
Proof.
  repeat split;
  lazymatch goal with |- _ = ?r => vm_cast_no_check (eq_refl r) end.
Qed.
Lemma shut_find_fn t m : free m = true -> find_fn (fns crate) t m = find_fn (fns shut) t m.
Proof. intros A. rewrite <- find_fn_free, <- shut_fns by exact A. now apply find_fn_free. Qed.
Lemma shut_resolve1 x : free x = true -> resolve1 crate x = resolve1 shut x.
Proof.
  intros A. unfold resolve1. destruct shut_rest as (-> & -> & -> & _). now rewrite (shut_find_fn "" x A).
Qed.
Lemma shut_resolve2 t x : free x = true -> resolve2 crate t x = resolve2 shut t x.
Proof.
  intros A. unfold resolve2. rewrite (shut_resolve1 x A). destruct shut_rest as (-> & -> & -> & _).
  now rewrite (shut_find_fn t x A).
Qed.
Lemma shut_resolve p : forallb free p = true -> resolve crate p = resolve shut p.
Proof.
  intros H. destruct (resolve_shape p) as [(t & r & x & m & ->)|S].
  - cbn [resolve]. apply forallb_rev in H. cbn [rev app forallb] in H. apply andb_prop in H as [H _].
    rewrite <- (find_qualified_free (fns crate)), <- shut_fns, find_qualified_free by exact H. reflexivity.
  - rewrite !S. apply forallb_rev in H. destruct shut_rest as (_ & _ & _ & ->).
    destruct (rev p) as [|x [|t l]]; [reflexivity|..]; cbn [forallb] in H; apply andb_prop in H as [H _];
      [now apply shut_resolve1|now apply shut_resolve2].
Qed.
Lemma shut_ok : ok_program free shut = true.
Proof. vm_compute. reflexivity. Qed.
Lemma shut_method v m : ok_value free (fun _ => true) v = true -> free m = true ->
  method_path crate v m = method_path shut v m.
Proof.
  intros _ A. destruct v; cbn [method_path]; lazymatch goal with |- None = None => reflexivity | _ => idtac end.
  - replace (find_try_from (fns shut) "char") with (find_try_from (fns crate) "char") by (vm_compute; reflexivity). reflexivity.
  - now rewrite (shut_find_fn _ m A).
  - now rewrite (shut_find_fn _ m A).
Qed.

(** They give the same results, with the same fuel. *)
Theorem shut_same M n f args : free_call f args = true -> call M shut n (VPath f) args = call M crate n (VPath f) args.
Proof.
  unfold free_call. intros H. apply andb_prop in H as [F W].
  refine (proj1 (proj2 (same_machines free (fun _ => true) eq_refl eq_refl
    (fun _ _ => eq_refl) (fun _ _ _ _ => eq_refl) M crate shut nw_own nw_own
    (eval M crate) (call M crate) (eval M shut) (call M shut) (eval_0 M crate) (call_0 M crate)
    (eval_S M crate) (call_S M crate) (eval_0 M shut) (call_0 M shut) (eval_S M shut) (call_S M shut)
    shut_resolve (resolve_ok _ _ _ shut_ok) _ shut_method (fun v m p => method_ok _ _ _ shut_ok v m p) _ n)
    (VPath f) args F W)).
  - intros p t a _ R. destruct (resolve_new shut p t a R) as (attrs & fs & I & _).
    apply (ok_structs free shut shut_ok) in I. now apply andb_prop in I as [_ I].
  - intros n' p t a s _ _ _ CALL. unfold nw_own.
    apply (same_bind n' (ok_result free (fun _ => true)) (fun _ => True) _
      (fun m => call M shut m (VPath [("grammar::" ++ a)%string; "validate_bytes"]) [VBytes s])
      (fun r => match fst r with VBool b => Ret b | _ => OutOfFuel end)
      (fun _ r => match fst r with VBool b => Ret b | _ => OutOfFuel end)).
    + apply CALL; reflexivity.
    + intros x _. now apply same_same.
Qed.

(** * 2. The functions that do *)

Lemma find_segment_start_shut {M} n s e :
  60 + S e <= n -> length s + 4 <= M ->
  call M shut n (VPath ["find_segment_start"]) [VStr s; VNat (S e)] = lift VNat (find_segment_start s (S e)).
Proof.
  intros Hn HM. fuel n 50. enter. run. unfold find_segment_start, lift. run.
  cbn [Nat.ltb Nat.leb]. run. cbn [Nat.leb Nat.sub]. run. rewrite ?Nat.sub_0_r.
  match goal with
  | |- context [eval M shut _ (_ :: ?e) (ELoop ?b)] =>
    assert (forall i n, 30 + i <= n ->
      ends (eval M shut n (("i", VNat i) :: e) (ELoop b)) =
      omap (fun v => Some (VNat v)) (find_segment_start_loop s i)) as L
  end.
  { induction i as [|i IH]; intros n Hn'; fuel n 30; cbn [find_segment_start_loop]; unroll;
      (destruct (index s _) as [b| |] eqn:?; [|reflexivity|reflexivity]); run;
      destruct (beq b dash) eqn:B; unfold dash in B; rewrite B; run; try reflexivity.
    cbn [Nat.ltb Nat.leb]. run. cbn [Nat.leb Nat.sub]. run. rewrite ?Nat.sub_0_r. apply IH. lia. }
  rewrite finish2, (L e) by lia. now destruct (find_segment_start_loop s e).
Qed.
Lemma VariantsIter_next_back_shut {M} n it :
  100 + v_end it <= n -> length (v_data it) + 4 <= M ->
  call M shut n (VPath ["VariantsIter"; "next_back"]) [vviter it] =
  lift_step (voption (vtag VariantT)) vviter (VariantsIter_next_back it).
Proof.
  destruct it as [s o e]. intros Hn HM. fuel n 30. unfold VariantsIter_next_back, vviter. cbn [v_data v_offset v_end] in *.
  enter. run. unfold lift_step.
  destruct (o <? e) eqn:O; run; [|reflexivity]. apply Nat.ltb_lt in O. destruct e as [|e]; [lia|].
  rewrite find_segment_start_shut by lia. unfold lift.
  destruct (find_segment_start s (S e)) as [x| |]; [|reflexivity|reflexivity]. run.
  destruct (slice s x (S e)); [|reflexivity|reflexivity]. run.
  destruct x as [|x]; cbn [Nat.ltb Nat.leb]; run; [reflexivity|]. cbn [Nat.leb]. run. reflexivity.
Qed.
Lemma Variants_iter_shut {M} n s :
  30 <= n -> call M shut n (VPath ["Variants"; "iter"]) [vtag VariantsT s] = Ret (vviter (Variants_iter s), []).
Proof. intros. rewrite shut_same by reflexivity. now apply Variants_iter_src. Qed.
Lemma Variants_last_shut {M} n s :
  160 + length s <= n -> length s + 4 <= M ->
  call M shut n (VPath ["Variants"; "last"]) [vtag VariantsT s] = lift (voption (vtag VariantT)) (Variants_last s).
Proof.
  intros Hn HM. fuel n 40. enter. run. rewrite Variants_iter_shut by lia. run.
  rewrite VariantsIter_next_back_shut by (cbn; lia). unfold lift_step, lift, Variants_last.
  destruct (VariantsIter_next_back (Variants_iter s)) as [[]| |]; run; reflexivity.
Qed.
