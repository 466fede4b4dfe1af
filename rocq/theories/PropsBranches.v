(** C78: which branches of the source are used. *)
From Verif Require Import Base GrammarRs Validate Utils Grandfathered Normal LangTag Newtypes Derived Spec Observe.
From Verif Require Import RustText RustSyntax RustEval RustProgram RustRefine RustGrammar RustValidate RustNormal RustAccess
  RustTags RustLib RustSays RustOracle RustGenerated RustClient RustClientSound RustFuel PropsClient RustBranches
  RustTests RustUnused.
Import Base.
Open Scope string_scope.
Open Scope nat_scope.
Open Scope list_scope.

(** The program, run with enough fuel on every machine that has room for the arguments. *)
Definition runs_in (P : program) (f : list string) (args : list value) (r : outcome (value * list value)) : Prop :=
  forall M, 64 <= M -> rooms args <= M -> exists N, forall n, N <= n -> call M P n (VPath f) args = r.

(** * The branches in use *)

Lemma witnessed_all c : forall w, all_witnessed c w = true -> forall e i l, In (e, i, l) c ->
  unused e i = true \/ exists x, witnessed l x = true.
Proof.
  induction c as [|[[e0 i0] l0] c IH]; intros w H e i l I; [destruct I|]. cbn [all_witnessed] in H.
  destruct w as [|[x|] w]; [discriminate H|..]; apply andb_prop in H as [H1 H2]; destruct I as [E|I]; try (now apply (IH w));
    injection E as -> -> ->; eauto.
Qed.

(** Every branch of the source outside grammar.rs, but one: a function that is offered, called with arguments that a client
    can have, returns; and panics, if the branch is replaced by a panic. *)
Theorem C78_used : forall P e i l, load files (Program [] [] [] [] []) = Some P ->
  In (e, i, l) (entry_cuts in_grammar (fns P)) -> unused e i = false ->
  exists f tys args v, offered P f tys /\ Forall2 (has_type P) tys args /\ (forall a, In a args -> reached P runs a) /\
    runs f args (Ret v) /\
    exists N, forall M n, 1000 <= M -> N <= n ->
      call M (Program l (consts P) (structs P) (enums P) (aliases P)) n (VPath f) args = Panic.
Proof.
  intros P e i l L I U. rewrite crate_is_the_source in L. injection L as <-.
  destruct (witnessed_all _ _ cuts_witnessed e i l I) as [X|([f is] & W)]; [congruence|].
  unfold witnessed in W. cbn [fst snd] in W. destruct (sig f) as [tys|] eqn:S; [|discriminate W].
  destruct (picked pool is) as [args|] eqn:Q; [|discriminate W]. apply andb_prop in W as [W C]. apply andb_prop in W as [T B].
  apply sig_offered in S. apply typesb_have_types in T. apply Nat.leb_le in B.
  assert (R : forall a, In a args -> reached crate runs a).
  { intros a A. apply (proj1 (Forall_forall _ _) pool_reached). exact (picked_In pool is args Q a A). }
  destruct (call 1000 crate 300 (VPath f) args) as [v| |] eqn:E; try discriminate C.
  destruct (call 1000 (with_fns l) 300 (VPath f) args) as [?| |] eqn:D; try discriminate C.
  exists f, tys, args, v. split; [exact S|]. split; [exact T|]. split; [exact R|]. split; [exact (run_runs f tys args v S T R B E)|].
  exists 300. intros M n LM LN. fold (with_fns l).
  destruct (upto_call (with_fns l) 1000 M 300 n (VPath f) args LM LN) as [Y|Y]; rewrite D in Y; [discriminate Y|exact (eq_sym Y)].
Qed.

(** * The other one *)

Lemma shut_keeps f tys args r : offered crate f tys -> says f args r -> runs_in shut f args r.
Proof.
  intros O H. apply offered_not_hidden in O.
  assert (K : free_call f args = true -> runs_in shut f args r).
  { intros A M L R. apply says_runs in H. destruct (runs_inv _ _ _ H M L R) as (N & X). exists N. intros n B.
    rewrite shut_same by exact A. now apply X. }
  destruct H;
    try discriminate O;
    try (apply K; clear;
         repeat match goal with
         | ty : newtype |- _ => destruct ty
         | t : typed |- _ => destruct t
         | k : kind |- _ => destruct k
         | g : grandfathered |- _ => destruct g
         end; reflexivity);
    try (apply K; match goal with W : _ \/ _ |- _ => destruct W as [-> | ->]; reflexivity end); clear K.
  - (* VariantsIter::next_back *) intros M L R. exists (2000 + v_end it). intros n B. apply VariantsIter_next_back_shut; [lia|].
    destruct it. cbn in *. lia.
  - (* Variants::last *) intros M L R. exists (2000 + length s). intros n B. apply Variants_last_shut; [lia|]. cbn in R. lia.
Qed.

Lemma unused_only (C : list (entry * nat * list entry)) Q :
  map (fun x => with_fns (snd x)) (filter (fun x => unused (fst (fst x)) (snd (fst x))) C) = [Q] ->
  exists e l, filter (fun x => unused (fst (fst x)) (snd (fst x))) C = [(e, 7, l)] /\ with_fns l = Q.
Proof.
  destruct (filter _ C) as [|[[e i] l] [|? ?]] eqn:F; intros O; try discriminate O.
  assert (X : In (e, i, l) (filter (fun x => unused (fst (fst x)) (snd (fst x))) C)) by (rewrite F; now left).
  apply filter_In in X as [_ X]. cbn [fst snd] in X. unfold unused in X. apply andb_prop in X as [_ X]. apply Nat.eqb_eq in X. subst i.
  exists e, l. split; [reflexivity|]. cbn [map snd] in O. congruence.
Qed.
Lemma same_results Q f args q r : runs f args q -> runs_in Q f args q -> (runs f args r <-> runs_in Q f args r).
Proof.
  intros H S. split; intros X.
  - now rewrite (runs_unique _ _ _ _ X H).
  - replace r with q; [exact H|].
    destruct (S (64 + rooms args) ltac:(lia) ltac:(lia)) as (N & A). destruct (X (64 + rooms args) ltac:(lia) ltac:(lia)) as (N' & B).
    rewrite <- (A (N + N') ltac:(lia)). apply B. lia.
Qed.
Lemma shut_results f tys args r : offered crate f tys -> Forall2 (has_type crate) tys args -> (forall a, In a args -> reached crate runs a) ->
  (runs f args r <-> runs_in shut f args r).
Proof.
  intros O T R. destruct (call_sound f tys args O T) as (q & H & _).
  { apply Forall_forall. intros a A. exact (reached_sound a (R a A)). }
  exact (same_results shut f args q r (says_runs f args q H) (shut_keeps f tys args q O H)).
Qed.

(** The other one is the [else] of [find_segment_start] (normal/mod.rs:232-234): with it replaced by a panic, every function
    that is offered gives the same results. *)
Theorem C78_unused : forall P, load files (Program [] [] [] [] []) = Some P ->
  exists e l, filter (fun x => unused (fst (fst x)) (snd (fst x))) (entry_cuts in_grammar (fns P)) = [(e, 7, l)] /\
    forall f tys args r, offered P f tys -> Forall2 (has_type P) tys args -> (forall a, In a args -> reached P runs a) ->
      (runs f args r <-> runs_in (Program l (consts P) (structs P) (enums P) (aliases P)) f args r).
Proof.
  intros P L. rewrite crate_is_the_source in L. injection L as <-.
  destruct (unused_only _ _ unused_once) as (e & l & F & E). exists e, l. split; [exact F|]. fold (with_fns l). rewrite E.
  exact shut_results.
Qed.

(** * Cases *)

(** Three functions and their branches: the body, both sides of [if] (also the one not written), arms, the right side of
    [&&], and the body of a loop.  The source has 311; one of them is the [None] of [private_use_subtags]
    (normal/mod.rs:149), which the tag [fr-abcde] leads to. *)
Definition some_branches : bytes := text_bytes
"fn f(a: bool, b: bool) -> usize { if a && b { 1 } else { 2 } }
fn g(a: Option<usize>) -> usize { match a { Some(i) => i, None => 0 } }
fn h(a: usize) -> usize { let mut i = 0; while i < a { if i == 3 { return i; } i += 1 } i }
"%text.
Example C78_case :
  (exists is, parse_test some_branches = Some is /\ map (fun e => (fn_name (en_fn e), length (fn_cuts (en_fn e))))
     (rev (fns (fold_left (load_item "") is (Program [] [] [] [] [])))) = [("f", 4); ("g", 3); ("h", 4)]) /\
  length (filter (fun e => negb (in_grammar e)) (fns crate)) = 150 /\ length (entry_cuts in_grammar (fns crate)) = 311 /\
  exists e l, nth_error (entry_cuts in_grammar (fns crate)) 154 = Some (e, 2, l) /\
    en_type e = "NormalLangTag" /\ fn_name (en_fn e) = "private_use_subtags" /\
    call 100 crate 300 (VPath ["NormalLangTag"; "private_use_subtags"]) [vtag NormalLangTagT (bs "fr-abcde")] =
      Ret (viter_of "PrivateUseIter" (Iter [] 0), []) /\
    call 100 (with_fns l) 300 (VPath ["NormalLangTag"; "private_use_subtags"]) [vtag NormalLangTagT (bs "fr-abcde")] = Panic.
Proof.
  split; [eexists; split; [vm_compute; reflexivity|vm_compute; reflexivity]|].
  split; [vm_compute; reflexivity|]. split; [vm_compute; reflexivity|].
  eexists. eexists. split; [vm_compute; reflexivity|]. repeat split; vm_compute; reflexivity.
Qed.

Print Assumptions C78_used.
Print Assumptions C78_unused.
