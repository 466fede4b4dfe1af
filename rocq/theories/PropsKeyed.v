(** Properties C66 and C67: maps, sets and sorted slices of tags. *)
From Coq Require Import Sorting.Permutation Sorting.Sorted.
From Verif Require Import Base GrammarRs Validate Utils Newtypes Spec Observe Case Order Containers Keyed.

(** * C66: maps keyed by tags, over any history *)

(** A search tree that compares with [cmp] answers every sequence of operations as the map from lowercase texts does;
    it holds the same entries, each once, and iteration gives them in the order of [cmp]. *)
Theorem C66_ordered_map : forall (V : Type) ty (ops : list (map_op V)), exists t,
  tree_run ty ops Leaf = Ret (abstract_run ops (fun _ => None), t) /\
  (forall x v, (exists k, In (k, v) (tree_entries t) /\ map lower k = x) <-> abstract_after ops (fun _ => None) x = Some v) /\
  (forall i j a b, i < j -> nth_error (map fst (tree_entries t)) i = Some a ->
     nth_error (map fst (tree_entries t)) j = Some b -> cmp_of ty a b = Ret Lt).
Proof.
  intros V ty ops. destruct (tree_run_spec ty ops Leaf I) as (t & R & B & S). exists t. split; [exact R|]. split.
  - intros x v. rewrite <- (abstract_after_ext ops (sem Leaf) (fun _ => None)) by reflexivity. rewrite <- S.
    exact (entries_sem t x v B).
  - intros i j a b L A C. rewrite cmp_of_ci. f_equal. apply entries_sorted in B. revert i j L A C.
    induction B as [|e l B IH F]; intros i j L A C; [now destruct i|].
    destruct j as [|j]; [lia|]. cbn in C. destruct i as [|i].
    + injection A as <-. apply nth_error_In in C. apply in_map_iff in C as (e' & <- & I).
      exact (proj1 (Forall_forall _ _) F e' I).
    + apply (IH i j); [lia|exact A|exact C].
Qed.
(** So does a hash table with any hasher, of any size, moved to any other size before any operation. *)
Theorem C66_hash_map : forall (V : Type) ty (H : hasher) (finish : hstate H -> nat) (st0 : hstate H)
  (ops : list (option nat * map_op V)) n, exists t,
  table_run ty H finish st0 ops (Table (S n) (fun _ => [])) = Ret (abstract_run (map snd ops) (fun _ => None), t) /\
  (forall x v, (exists k, In (k, v) (table_entries t) /\ map lower k = x) <->
     abstract_after (map snd ops) (fun _ => None) x = Some v) /\
  NoDup (map (fun e => map lower (fst e)) (table_entries t)).
Proof.
  intros V ty H finish st0 ops n. pose (t0 := Table (V := V) (S n) (fun _ => [])).
  assert (W : wfs H finish st0 t0) by (split; [apply empty_wf|now exists n]).
  destruct (table_run_spec ty H finish st0 ops t0 W) as (t & R & W' & L). exists t. split; [exact R|]. split.
  - intros x v. rewrite <- (abstract_after_ext (map snd ops) (t_sem H finish st0 t0) (fun _ => None)) by reflexivity.
    rewrite <- L. exact (t_sem_entries H finish st0 t x v W').
  - exact (t_nodup H finish st0 t W').
Qed.
Print Assumptions C66_ordered_map.
Print Assumptions C66_hash_map.

Definition history : list (map_op nat) :=
  [Insert (bs "fr-FR") 1; Insert (bs "de") 2; Get (bs "FR-fr"); Insert (bs "Fr-Fr") 3; Get (bs "fr"); Remove (bs "DE");
   Get (bs "de"); Insert (bs "fr") 4; Get (bs "FR-FR")].
Example C66_case :
  omap (fun r => (fst r, tree_entries (snd r))) (tree_run LangTagT history Leaf) =
  Ret ([None; None; Some 1; Some 1; None; Some 2; None; None; Some 3], [(bs "fr-FR", 3); (bs "fr", 4)]) /\
  abstract_run history (fun _ => None) = [None; None; Some 1; Some 1; None; Some 2; None; None; Some 3] /\
  omap fst (table_run LangTagT trace_hasher (@length byte) []
    (map (fun o => (match o with Get _ => Some 1 | _ => None end, o)) history) (Table 1 (fun _ => []))) =
  Ret [None; None; Some 1; Some 1; None; Some 2; None; None; Some 3].
Proof. repeat split; vm_compute; reflexivity. Qed.

(** * C67: sorting, deduplicating and searching *)

Theorem C67_sort : forall ty l, exists r, sort ty l = Ret r /\ Permutation l r /\ sorted_by ty r.
Proof. exact sort_spec. Qed.
(** Sorted lists of the same texts, up to case, are equal position by position, up to case; whatever sorted them. *)
Theorem C67_unique : forall ty l r, sorted_by ty l -> sorted_by ty r ->
  Permutation (map (map lower) l) (map (map lower) r) -> Forall2 (fun a b => eq_of ty a b = Ret true) l r.
Proof.
  intros ty l r L R P. pose proof (sorted_unique ty l r L R P) as E. clear - E. revert r E.
  induction l as [|x l IH]; intros [|y r] E; try discriminate E; constructor.
  - apply eq_of_true. now injection E.
  - apply IH. now injection E.
Qed.
(** After sorting, [dedup] leaves each text once, up to case. *)
Theorem C67_dedup : forall ty l, sorted_by ty l -> exists r, dedup ty l = Ret r /\ sorted_by ty r /\ incl r l /\
  NoDup (map (map lower) r) /\ forall a, In a l -> exists b, In b r /\ eq_of ty a b = Ret true.
Proof.
  intros ty l S. destruct (dedup_spec ty l S) as (r & R & S' & N & C & I). exists r. repeat split; auto.
  intros a A. apply (in_map low) in A. apply I in A. apply in_map_iff in A as (b & E & B). exists b. split; [exact B|].
  apply eq_of_true. exact (eq_sym E).
Qed.
(** A binary search finds a value equal up to case if there is one, and else the place where it goes. *)
Theorem C67_search : forall ty l x, sorted_by ty l -> exists r,
  binary_search ty (S (length l)) l x 0 (length l) = Ret r /\
  match r with
  | Ok i => exists y, nth_error l i = Some y /\ eq_of ty y x = Ret true
  | Err i => (forall y, In y l -> eq_of ty y x = Ret false) /\ sorted_by ty (firstn i l ++ x :: skipn i l)
  end.
Proof.
  intros ty l x S. destruct (binary_search_spec ty l x S (Datatypes.S (length l)) 0 (length l)) as (r & R & P); [lia..| |].
  { intros i y L Y. assert (i < length l) by (apply nth_error_Some; congruence). lia. }
  exists r. split; [exact R|]. destruct r as [i|i].
  - destruct P as (y & Y & E). exists y. split; [exact Y|]. now apply eq_of_true.
  - destruct P as (L & B & A). split.
    + intros y Y. apply eq_of_false. intros E. apply In_nth_error in Y as (j & Y).
      assert (C : ci_cmp y x = Eq) by now apply Keyed.ci_cmp_eq.
      destruct (le_lt_dec i j) as [G|G]; [specialize (A j y G Y)|specialize (B j y G Y)]; congruence.
    + apply sorted_by_strong in S. apply sorted_by_strong.
      assert (F1 : Forall (fun y => ci_cmp y x = Lt) (firstn i l)).
      { apply Forall_forall. intros y Y. apply In_nth_error in Y as (j & Y).
        assert (J : j < i) by (pose proof (firstn_length i l); assert (j < length (firstn i l)) by (apply nth_error_Some; congruence); lia).
        apply (B j y J). rewrite <- (firstn_skipn i l), nth_error_app1; [exact Y|apply nth_error_Some; congruence]. }
      assert (F2 : Forall (fun y => ci_cmp y x = Gt) (skipn i l)).
      { apply Forall_forall. intros y Y. apply In_nth_error in Y as (j & Y). apply (A (i + j) y); [lia|].
        rewrite <- (firstn_skipn i l), nth_error_app2 by (rewrite firstn_length; lia). rewrite firstn_length, Nat.min_l by lia.
        now replace (i + j - i) with j by lia. }
      rewrite <- (firstn_skipn i l) in S. revert S F1 F2. generalize (firstn i l) (skipn i l). clear. intros p q.
      induction p as [|y p IH]; cbn; intros S F1 F2.
      * constructor; [exact S|]. eapply Forall_impl; [|exact F2]. intros z Z. now apply le_total.
      * apply StronglySorted_inv in S as [S F]. apply Forall_cons_iff in F1 as [Y F1]. constructor; [now apply IH|].
        apply Forall_app in F as [G1 G2]. apply Forall_app. split; [exact G1|]. constructor; [unfold le; congruence|exact G2].
Qed.
Print Assumptions C67_sort.
Print Assumptions C67_unique.
Print Assumptions C67_dedup.
Print Assumptions C67_search.
Example C67_case :
  sort LangTagT (map bs ["zh"; "fr"; "FR-be"; "de"; "Fr"]%string) = Ret (map bs ["de"; "FR-be"; "fr"; "Fr"; "zh"]%string) /\
  dedup LangTagT (map bs ["de"; "FR-be"; "fr"; "Fr"; "zh"]%string) = Ret (map bs ["de"; "FR-be"; "fr"; "zh"]%string) /\
  binary_search LangTagT 5 (map bs ["de"; "FR-be"; "fr"; "zh"]%string) (bs "FR") 0 4 = Ret (Ok 2) /\
  binary_search LangTagT 5 (map bs ["de"; "FR-be"; "fr"; "zh"]%string) (bs "it") 0 4 = Ret (Err 3).
Proof. repeat split; vm_compute; reflexivity. Qed.
