(** Not the code in /repo: normal/mod.rs with a patch of two lines, which Repair.v has as a model, as text that is read and
    run. *)
From Verif Require Import Base GrammarRs Validate Utils Grandfathered Normal LangTag Newtypes Derived NoOverflow Repair.
From Verif Require Import RustText RustSyntax RustEval RustProgram RustRefine RustGrammar RustValidate RustNormal RustAccess
  RustTags RustLib RustSays RustOracle RustGenerated.
Open Scope string_scope.
Open Scope nat_scope.
Open Scope list_scope.

(** * 1. The patch *)

(** What follows [p], in a text that starts with it. *)
Fixpoint after (p s : bytes) : option bytes :=
  match p, s with
  | [], _ => Some s
  | a :: p', b :: s' => if beq a b then after p' s' else None
  | _ :: _, [] => None
  end.
(** The first [old] in the text, replaced. *)
Fixpoint replace (old new s : bytes) : bytes :=
  match after old s with
  | Some r => new ++ r
  | None => match s with b :: s' => b :: replace old new s' | [] => [] end
  end.
(** How often [old] is in the text. *)
Fixpoint occurrences (old s : bytes) : nat :=
  (match after old s with Some _ => 1 | None => 0 end) + match s with _ :: s' => occurrences old s' | [] => 0 end.

(** normal/mod.rs:181, the first line of [find_list_end]. *)
Definition scan_old : bytes := text_bytes
"fn find_list_end(string: &str, mut offset: usize, mut f: impl FnMut(usize, &str) -> bool) -> usize {
"%text.
Definition scan_new : bytes := scan_old ++ text_bytes
"	if offset > string.len() {
		return offset;
	}
"%text.
(** normal/mod.rs:130-132, in [private_use_offset]. *)
Definition private_old : bytes := text_bytes
"		let variants_end = self.variants_range().end;

		if variants_end < self.0.len() {
"%text.
Definition private_new : bytes := text_bytes
"		let variants_end = self.extensions_range().end;

		if variants_end < self.0.len() {
"%text.
Definition mended_mod_rs : bytes := replace private_old private_new (replace scan_old scan_new normal_mod_rs).

Definition mended_files : list (string * bytes) :=
  [ ("", lib_rs); ("", utils_rs); ("", grandfathered_rs); ("", private_use_rs);
    ("", mended_mod_rs); ("", normal_extension_rs); ("", normal_variant_rs);
    ("", normal_private_use_rs); ("", normal_script_rs); ("", normal_region_rs);
    ("", normal_language_mod_rs); ("", normal_language_extlang_rs);
    ("", normal_language_primary_rs); ("grammar::", grammar_rs) ].
Definition mended : program :=
  Eval vm_compute in
    match load mended_files (Program [] [] [] [] []) with Some P => P | None => Program [] [] [] [] [] end.
Lemma mended_is_the_text : load mended_files (Program [] [] [] [] []) = Some mended.
Proof. vm_cast_no_check (eq_refl (Some mended)). Qed.
Lemma patched_once : occurrences scan_old normal_mod_rs = 1 /\ occurrences private_old (replace scan_old scan_new normal_mod_rs) = 1.
Proof. split; vm_compute; reflexivity. Qed.

(** The patched text, read and run with enough fuel, on every machine that has room for the arguments. *)
Definition runs_mended (f : list string) (args : list value) (r : outcome (value * list value)) : Prop :=
  exists P, load mended_files (Program [] [] [] [] []) = Some P /\
    forall M, 64 <= M -> rooms args <= M -> exists N, forall n, N <= n -> call M P n (VPath f) args = r.

(** * 2. The functions that do not use the two *)

(** The names of the functions that may call one of the two. *)
Definition touched : list string :=
  [ "find_list_end"; "private_use_offset"; "language_end"; "language"; "script_range"; "script"; "region_range"; "region";
    "variants_range"; "variants"; "extensions_range"; "extensions"; "private_use"; "private_use_subtags"; "get";
    "iter_extension"; "next"; "first"; "from_string"; "from_str" ].
Definition apart (x : string) : bool := negb (existsb (String.eqb x) touched).
Definition apart_call (f : list string) (args : list value) : bool :=
  forallb apart f && forallb (ok_value apart (fun _ => true)) args.

Lemma find_fn_apart l t m : apart m = true -> find_fn (filter (fun e => apart (fn_name (en_fn e))) l) t m = find_fn l t m.
Proof.
  intros T. induction l as [|e l IH]; [reflexivity|]. cbn.
  destruct (apart (fn_name (en_fn e))) eqn:E; cbn; rewrite IH; [reflexivity|].
  destruct (String.eqb (fn_name (en_fn e)) m) eqn:X; [|now rewrite andb_false_r]. apply String.eqb_eq in X. congruence.
Qed.
Lemma find_qualified_apart l t r x m : apart m = true ->
  find_qualified (filter (fun e => apart (fn_name (en_fn e))) l) t r x m = find_qualified l t r x m.
Proof.
  intros T. induction l as [|e l IH]; [reflexivity|]. cbn.
  destruct (apart (fn_name (en_fn e))) eqn:E; cbn; rewrite IH; [reflexivity|].
  destruct (String.eqb (fn_name (en_fn e)) m) eqn:X; [|now rewrite andb_false_r]. apply String.eqb_eq in X. congruence.
Qed.
Definition kept : list entry := Eval vm_compute in filter (fun e => apart (fn_name (en_fn e))) (fns crate).
Lemma kept_crate : filter (fun e => apart (fn_name (en_fn e))) (fns crate) = kept.
Proof. vm_cast_no_check (eq_refl kept). Qed.
Lemma kept_mended : filter (fun e => apart (fn_name (en_fn e))) (fns mended) = kept.
Proof. vm_cast_no_check (eq_refl kept). Qed.
Lemma mended_fns : filter (fun e => apart (fn_name (en_fn e))) (fns mended) = filter (fun e => apart (fn_name (en_fn e))) (fns crate).
Proof. exact (eq_trans kept_mended (eq_sym kept_crate)). Qed.
Lemma mended_rest : structs mended = structs crate /\ consts mended = consts crate /\ enums mended = enums crate /\
  aliases mended = aliases crate.
Proof.
  repeat split;
  lazymatch goal with |- _ = ?r => vm_cast_no_check (eq_refl r) end.
Qed.
Lemma mended_find_fn t m : apart m = true -> find_fn (fns crate) t m = find_fn (fns mended) t m.
Proof. intros A. rewrite <- find_fn_apart, <- mended_fns by exact A. now apply find_fn_apart. Qed.
Lemma mended_resolve1 x : apart x = true -> resolve1 crate x = resolve1 mended x.
Proof.
  intros A. unfold resolve1. destruct mended_rest as (-> & -> & -> & _). now rewrite (mended_find_fn "" x A).
Qed.
Lemma mended_resolve2 t x : apart x = true -> resolve2 crate t x = resolve2 mended t x.
Proof.
  intros A. unfold resolve2. rewrite (mended_resolve1 x A). destruct mended_rest as (-> & -> & -> & _).
  now rewrite (mended_find_fn t x A).
Qed.
Lemma mended_resolve p : forallb apart p = true -> resolve crate p = resolve mended p.
Proof.
  intros H. destruct (resolve_shape p) as [(t & r & x & m & ->)|S].
  - cbn [resolve]. apply forallb_rev in H. cbn [rev app forallb] in H. apply andb_prop in H as [H _].
    rewrite <- (find_qualified_apart (fns crate)), <- mended_fns, find_qualified_apart by exact H. reflexivity.
  - rewrite !S. apply forallb_rev in H. destruct mended_rest as (_ & _ & _ & ->).
    destruct (rev p) as [|x [|t l]]; [reflexivity|..]; cbn [forallb] in H; apply andb_prop in H as [H _];
      [now apply mended_resolve1|now apply mended_resolve2].
Qed.
Lemma mended_ok : ok_program apart mended = true.
Proof. vm_compute. reflexivity. Qed.
Lemma mended_method v m : ok_value apart (fun _ => true) v = true -> apart m = true ->
  method_path crate v m = method_path mended v m.
Proof.
  intros _ A. destruct v; cbn [method_path]; lazymatch goal with |- None = None => reflexivity | _ => idtac end.
  - replace (find_try_from (fns mended) "char") with (find_try_from (fns crate) "char") by (vm_compute; reflexivity). reflexivity.
  - now rewrite (mended_find_fn _ m A).
  - now rewrite (mended_find_fn _ m A).
Qed.

(** They give the same results, with the same fuel. *)
Theorem mended_same M n f args : apart_call f args = true -> call M mended n (VPath f) args = call M crate n (VPath f) args.
Proof.
  unfold apart_call. intros H. apply andb_prop in H as [F W].
  refine (proj1 (proj2 (same_machines apart (fun _ => true) eq_refl eq_refl
    (fun _ _ => eq_refl) (fun _ _ _ _ => eq_refl) M crate mended nw_own nw_own
    (eval M crate) (call M crate) (eval M mended) (call M mended) (eval_0 M crate) (call_0 M crate)
    (eval_S M crate) (call_S M crate) (eval_0 M mended) (call_0 M mended) (eval_S M mended) (call_S M mended)
    mended_resolve (resolve_ok _ _ _ mended_ok) _ mended_method (fun v m p => method_ok _ _ _ mended_ok v m p) _ n)
    (VPath f) args F W)).
  - intros p t a _ R. destruct (resolve_new mended p t a R) as (attrs & fs & I & _).
    apply (ok_structs apart mended mended_ok) in I. now apply andb_prop in I as [_ I].
  - intros n' p t a s _ _ _ CALL. unfold nw_own.
    apply (same_bind n' (ok_result apart (fun _ => true)) (fun _ => True) _
      (fun m => call M mended m (VPath [("grammar::" ++ a)%string; "validate_bytes"]) [VBytes s])
      (fun r => match fst r with VBool b => Ret b | _ => OutOfFuel end)
      (fun _ r => match fst r with VBool b => Ret b | _ => OutOfFuel end)).
    + apply CALL; reflexivity.
    + intros x _. now apply same_same.
Qed.
