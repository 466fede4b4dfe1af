(** C80: a function may be replaced by one with the same results. *)
From Verif Require Import Base GrammarRs Validate Utils Grandfathered Normal LangTag Newtypes Derived Spec Observe.
From Verif Require Import RustText RustSyntax RustEval RustProgram RustRefine RustGrammar RustValidate RustNormal RustAccess
  RustTags RustLib RustSays RustOracle RustGenerated RustClient RustClientSound RustFuel PropsClient RustBranches
  RustTests PropsBranches RustSwap RustWide.
Import Base.
Open Scope string_scope.
Open Scope nat_scope.
Open Scope list_scope.

(** [P] and [Q] differ in one function, with the same name, parameters, type and trait, which the path [p] names. *)
Definition differ_at (P Q : program) (p : list string) : Prop := exists before after t tr f0 f1,
  fns P = before ++ Entry t tr f0 :: after /\ fns Q = before ++ Entry t tr f1 :: after /\
  structs Q = structs P /\ consts Q = consts P /\ enums Q = enums P /\ aliases Q = aliases P /\
  fn_name f1 = fn_name f0 /\ fn_self f1 = fn_self f0 /\ fn_params f1 = fn_params f0 /\
  resolve P p = TgFn t f0 /\ resolve Q p = TgFn t f1.

(** Any program: what a call answers, it answers with the function replaced. *)
Theorem C80_replace : forall P Q p k M, differ_at P Q p ->
  (forall n args r, call M P n (VPath p) args = r -> r <> OutOfFuel -> call M Q (k + n) (VPath p) args = r) ->
  forall n f args r, call M P n f args = r -> r <> OutOfFuel -> forall n', k + n <= n' -> call M Q n' f args = r.
Proof.
  intros P Q p k M (before & after & t & tr & f0 & f1 & FP & FQ & RS & RC & RE & RA & N & SF & A & RP & RQ) H n f args r C D n' L.
  assert (W : forall n args, upto (run_fn (eval M P n) t f0 args) (run_fn (eval M Q (k + n)) t f1 args)).
  { intros m a. specialize (H (S m) a _ eq_refl). rewrite Nat.add_succ_r in H. cbn [call] in H. unfold call_step in H.
    rewrite RP, RQ in H. destruct (run_fn (eval M P m) t f0 a); [right; symmetry; apply H; discriminate..|now left]. }
  assert (U : fn_muts f1 = fn_muts f0) by (unfold fn_muts; now rewrite SF, A).
  destruct (swap_run (Entry t tr f0) (Entry t tr f1) eq_refl eq_refl N U P Q before after FP FQ
    (conj RS (conj RC (conj RE RA))) M k W n) as [_ X].
  destruct (X f args) as [E|E]; [congruence|].
  destruct (upto_call Q M M (k + n) n' f args (le_n M) L) as [E'|E']; congruence.
Qed.

(** The source: if the calls of one function give what they gave, so does every function offered, to every client. *)
Theorem C80_source : forall P Q p k, load files (Program [] [] [] [] []) = Some P -> differ_at P Q p ->
  (forall M n args r, call M P n (VPath p) args = r -> r <> OutOfFuel -> call M Q (k + n) (VPath p) args = r) ->
  forall f tys args r, offered P f tys -> Forall2 (has_type P) tys args -> (forall a, In a args -> reached P runs a) ->
    (runs f args r <-> runs_in Q f args r).
Proof.
  intros P Q p k L D H f tys args r. rewrite crate_is_the_source in L. injection L as <-. intros O T R.
  assert (S : Forall sound0 args) by (apply Forall_forall; intros a A; exact (reached_sound a (R a A))).
  destruct (call_sound f tys args O T S) as (q & Y & F). apply says_runs in Y. apply (same_results Q f args q r Y).
  intros M B K. destruct (runs_inv _ _ _ Y M B K) as (N & X). exists (k + N). intros n LN.
  apply (C80_replace crate Q p k M D (H M) N (VPath f) args q (X N (le_n N))); [|exact LN].
  intros ->. destruct F as [(w & outs & F & _)|[F _]]; discriminate F.
Qed.

(** * A case *)

(** [TryFrom<char> for Singleton] (normal/extension.rs:63-71) with [<=] for [<], on all values (RustWide.v). *)
Example C80_case :
  differ_at crate try_le try_path /\
  (forall M n args r, call M crate n (VPath try_path) args = r -> r <> OutOfFuel -> call M try_le (100 + n) (VPath try_path) args = r) /\
  fn_body (en_fn try_src) <> fn_body (en_fn try_edited) /\
  call 100 try_le 300 (VPath try_path) [VChar 255] = Ret (errv (tuple1 "InvalidSingleton" (VChar 255)), []) /\
  call 100 try_le 300 (VPath try_path) [VChar 97] = Ret (okv (vsingleton "a"%byte), []).
Proof.
  split.
  { exists try_before, try_after, (en_type try_src), (en_trait try_src), (en_fn try_src), (en_fn try_edited).
    destruct rest_edited as (A & B & C & D).
    exact (conj fns_src (conj fns_edited (conj A (conj B (conj C (conj D (conj eq_refl (conj eq_refl (conj eq_refl
      (conj resolve_src resolve_edited)))))))))). }
  split.
  { intros M n args r C D. destruct (try_le_upto M n (VPath try_path) args) as [X|X]; congruence. }
  split; [vm_compute; discriminate|]. split; vm_compute; reflexivity.
Qed.

Print Assumptions C80_replace.
Print Assumptions C80_source.
