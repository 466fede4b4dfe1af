(** The edit of a function that many use, [codepoint <= u8::MAX as u32] in [TryFrom<char> for Singleton]
    (normal/extension.rs:66): it changes nothing, 255 is not alphanumeric. *)
From Verif Require Import Base GrammarRs Validate Utils Grandfathered Normal LangTag Newtypes Derived Spec Observe Case.
From Verif Require Import RustText RustSyntax RustEval RustProgram RustRefine RustGrammar RustValidate RustNormal RustAccess
  RustTags RustLib RustSays RustOracle RustGenerated RustClient RustFuel RustBranches RustEdits RustSwap.
Import Base.
Open Scope string_scope.
Open Scope nat_scope.
Open Scope list_scope.

Definition wide_edits : list (entry * nat * list entry) :=
  filter (fun x => wide_edit (fst (fst x)) (snd (fst x))) (entry_edits in_grammar (fns crate)).
Definition try_le : program :=
  Eval vm_compute in match wide_edits with (_, l) :: _ => with_fns l | [] => Program [] [] [] [] [] end.
Lemma wide_edits_eq : map (fun x => with_fns (snd x)) wide_edits = [try_le].
Proof. vm_cast_no_check (eq_refl [try_le]). Qed.

(** Where it is. *)
Definition is_try (e : entry) : bool := String.eqb (en_type e) "Singleton" && is_trait (en_trait e) "TryFrom" "char".
Fixpoint position (l : list entry) : nat := match l with e :: l' => if is_try e then 0 else S (position l') | [] => 0 end.
Definition place : nat := Eval vm_compute in position (fns crate).
Definition no_entry : entry := Entry "" None (Fn "" NoSelf [] None (EBlock [] None)).
Definition try_src : entry := Eval vm_compute in nth place (fns crate) no_entry.
Definition try_edited : entry := Eval vm_compute in nth place (fns try_le) no_entry.
Definition try_before : list entry := Eval vm_compute in firstn place (fns crate).
Definition try_after : list entry := Eval vm_compute in skipn (S place) (fns crate).
Lemma fns_src : fns crate = try_before ++ try_src :: try_after.
Proof. vm_cast_no_check (eq_refl (fns crate)). Qed.
Lemma fns_edited : fns try_le = try_before ++ try_edited :: try_after.
Proof. vm_cast_no_check (eq_refl (fns try_le)). Qed.
Lemma rest_edited : structs try_le = structs crate /\ consts try_le = consts crate /\ enums try_le = enums crate /\
  aliases try_le = aliases crate.
Proof. repeat split; lazymatch goal with |- _ = ?r => vm_cast_no_check (eq_refl r) end. Qed.

Definition try_path : list string := ["Singleton"; "as"; "TryFrom"; "char"; "try_from"].
Lemma resolve_src : resolve crate try_path = TgFn (en_type try_src) (en_fn try_src).
Proof. vm_cast_no_check (eq_refl (TgFn (en_type try_src) (en_fn try_src))). Qed.
Lemma resolve_edited : resolve try_le try_path = TgFn (en_type try_src) (en_fn try_edited).
Proof. vm_cast_no_check (eq_refl (TgFn (en_type try_src) (en_fn try_edited))). Qed.
Lemma run_src M n args : call M crate (S n) (VPath try_path) args = run_fn (eval M crate n) (en_type try_src) (en_fn try_src) args.
Proof. cbn [call]. unfold call_step. rewrite resolve_src. reflexivity. Qed.
Lemma run_edited M n args : call M try_le (S n) (VPath try_path) args = run_fn (eval M try_le n) (en_type try_src) (en_fn try_edited) args.
Proof. cbn [call]. unfold call_step. rewrite resolve_edited. reflexivity. Qed.

(** What a call gives, on any value. *)
Definition tried (v : value) : outcome (value * list value) :=
  match v with
  | VChar c => Ret (vsingleton_result VChar (Singleton_try_from_char c), [])
  | VByte b => 
    Ret (match Singleton_new b with Ok s => okv (vsingleton s) | Err _ => errv (tuple1 "InvalidSingleton" v) end, [])
  | _ => OutOfFuel
  end.
Lemma new_edited M n c : 40 <= n ->
  call M try_le n (VPath ["Singleton"; "new"]) [VByte c] = Ret (vsingleton_result VByte (Singleton_new c), []).
Proof.
  intro Hn. fuel n 40. enter. run. unfold Singleton_new.
  destruct (beq c "x"); run; [reflexivity|]. destruct (beq c "X"); run; [reflexivity|].
  destruct (is_ascii_alphanumeric c); run; reflexivity.
Qed.
Lemma code_as b : u8_of (code b mod 256) = Some b.
Proof. destruct b; reflexivity. Qed.
Lemma code_top b : (code b <? 255)%N = false -> b = xff.
Proof. destruct b; try discriminate; reflexivity. Qed.
Lemma code_le b : (code b <=? 255)%N = true.
Proof. destruct b; reflexivity. Qed.
Lemma tried_src M n v : 80 <= n -> call M crate n (VPath try_path) [v] = tried v.
Proof.
  intro Hn. destruct v; cbn [tried]; try (fuel n 40; unfold try_path; enter; run; reflexivity).
  - fuel n 40. unfold try_path. enter. run. change (code xff) with 255%N. destruct (code b <? 255)%N eqn:B; run.
    + rewrite code_as. run. rewrite Singleton_new_src by lia.
      destruct (Singleton_new b); cbn [vsingleton_result okv errv]; run; reflexivity.
    + apply code_top in B. subst b. reflexivity.
  - now apply Singleton_try_from_char_src.
Qed.
Lemma tried_edited M n v : 80 <= n -> call M try_le n (VPath try_path) [v] = tried v.
Proof.
  intro Hn. destruct v; cbn [tried]; try (fuel n 40; unfold try_path; enter; run; reflexivity).
  - fuel n 40. unfold try_path. enter. run. change (code xff) with 255%N. rewrite code_le. run. rewrite code_as. run.
    rewrite new_edited by lia. destruct (Singleton_new b); cbn [vsingleton_result okv errv]; run; reflexivity.
  - fuel n 40. unfold try_path. enter. run. unfold Singleton_try_from_char. change (code xff) with 255%N.
    destruct (c <? 255)%N eqn:B.
    + replace (c <=? 255)%N with true by (symmetry; apply N.leb_le; apply N.ltb_lt in B; lia). run.
      destruct (u8_as c) as (b & E & ->). rewrite E. run.
      rewrite new_edited by lia. destruct (Singleton_new b); cbn [vsingleton_result okv errv]; run; reflexivity.
    + destruct (N.eq_dec c 255) as [->|D].
      * change (255 <=? 255)%N with true. run. change (u8_of (255 mod 256)) with (Some xff). run.
        rewrite new_edited by lia. change (Singleton_new xff) with (@Err byte byte xff). cbn [vsingleton_result okv errv]; run; reflexivity.
      * replace (c <=? 255)%N with false by (symmetry; apply N.leb_gt; apply N.ltb_ge in B; lia). run. reflexivity.
Qed.

Lemma same_run M n args :
  upto (run_fn (eval M crate n) (en_type try_src) (en_fn try_src) args)
       (run_fn (eval M try_le (100 + n)) (en_type try_src) (en_fn try_edited) args).
Proof.
  apply upto_trans with (run_fn (eval M crate (100 + n)) (en_type try_src) (en_fn try_src) args).
  - apply upto_run_fn. destruct (upto_run crate M M (le_n M) n (100 + n) ltac:(lia)) as [U _]. exact U.
  - right. rewrite <- run_src, <- run_edited. destruct args as [|v [|w l]].
    + rewrite run_src, run_edited. reflexivity.
    + rewrite tried_src, tried_edited by lia. reflexivity.
    + rewrite run_src, run_edited. reflexivity.
Qed.
Theorem try_le_upto M n f args : upto (call M crate n f args) (call M try_le (100 + n) f args).
Proof.
  exact (proj2 (swap_run try_src try_edited eq_refl eq_refl eq_refl eq_refl crate try_le try_before try_after
    fns_src fns_edited rest_edited M 100 (same_run M) n) f args).
Qed.
