(** Two programs that differ in one function, which gives the same results in both, give the same results. *)
From Verif Require Import Base GrammarRs Validate Utils Grandfathered Normal LangTag Newtypes Derived Spec Observe Case.
From Verif Require Import RustText RustSyntax RustEval RustProgram RustRefine RustGrammar RustValidate RustNormal RustAccess
  RustTags RustLib RustSays RustOracle RustGenerated RustClient RustFuel.
Import Base.
Open Scope string_scope.
Open Scope nat_scope.
Open Scope list_scope.

(** Names that stand for the same in every program. *)
Definition reserved (x : string) : option target :=
  match x with
  | "Some" => Some (TgVariant "Option" "Some" 1)
  | "None" => Some (TgVariant "Option" "None" 0)
  | "Ok" => Some (TgVariant "Result" "Ok" 1)
  | "Err" => Some (TgVariant "Result" "Err" 1)
  | "decode_utf8_char" => Some TgDecode
  | "from_utf8_unchecked" => Some TgFromUtf8
  | _ => None
  end.
Lemma resolve1_reserved P x : resolve1 P x = match reserved x with
  | Some t => t
  | None =>
    match find_fn (fns P) "" x with
    | Some f => TgFn "" f
    | None =>
      match find_struct (structs P) x with
      | Some _ => TgStruct x
      | None =>
        match find_const (consts P) "" x with
        | Some e => TgConst "" e
        | None => match find_any_variant (enums P) x with Some (t, k) => TgVariant t x k | None => TgNone end
        end
      end
    end
  end.
Proof.
  unfold resolve1, reserved.
  match goal with |- context [match find_fn (fns P) "" x with Some f => TgFn "" f | None => ?k end] =>
    generalize (match find_fn (fns P) "" x with Some f => TgFn "" f | None => k end) end.
  intros k. 
  repeat lazymatch goal with |- match ?y with _ => _ end = _ => destruct y; try reflexivity end.
Qed.

Section Swap.
Variables E0 E1 : entry.
Hypothesis same_type : en_type E1 = en_type E0.
Hypothesis same_trait : en_trait E1 = en_trait E0.
Hypothesis same_name : fn_name (en_fn E1) = fn_name (en_fn E0).
Hypothesis same_muts : fn_muts (en_fn E1) = fn_muts (en_fn E0).
Variables P Q : program.
Variables before after : list entry.
Hypothesis fns_P : fns P = before ++ E0 :: after.
Hypothesis fns_Q : fns Q = before ++ E1 :: after.
Hypothesis rest_same : structs Q = structs P /\ consts Q = consts P /\ enums Q = enums P /\ aliases Q = aliases P.

(** The same function, or the two. *)
Definition swap (t : string) (a b : option fn) : Prop :=
  a = b \/ (t = en_type E0 /\ a = Some (en_fn E0) /\ b = Some (en_fn E1)).
Lemma swap_fn t m : swap t (find_fn (fns P) t m) (find_fn (fns Q) t m).
Proof.
  rewrite fns_P, fns_Q. clear fns_P fns_Q. induction before as [|e l IH]; cbn [app find_fn].
  - rewrite same_type, same_name. destruct (String.eqb (en_type E0) t && String.eqb (fn_name (en_fn E0)) m) eqn:B; [|now left].
    right. apply andb_prop in B as [B _]. apply String.eqb_eq in B. now subst.
  - destruct (String.eqb (en_type e) t && String.eqb (fn_name (en_fn e)) m); [now left|exact IH].
Qed.
Lemma swap_qualified t r x m : swap t (find_qualified (fns P) t r x m) (find_qualified (fns Q) t r x m).
Proof.
  rewrite fns_P, fns_Q. clear fns_P fns_Q. induction before as [|e l IH]; cbn [app find_qualified].
  - rewrite same_type, same_name, same_trait.
    destruct (String.eqb (en_type E0) t && is_trait (en_trait E0) r x && String.eqb (fn_name (en_fn E0)) m) eqn:B; [|now left].
    right. apply andb_prop in B as [B _]. apply andb_prop in B as [B _]. apply String.eqb_eq in B. now subst.
  - destruct (String.eqb (en_type e) t && is_trait (en_trait e) r x && String.eqb (fn_name (en_fn e)) m); [now left|exact IH].
Qed.
Lemma swap_try x : find_try_from (fns P) x = find_try_from (fns Q) x.
Proof.
  rewrite fns_P, fns_Q. clear fns_P fns_Q. induction before as [|e l IH]; cbn [app find_try_from].
  - now rewrite same_type, same_trait.
  - destruct (is_trait (en_trait e) "TryFrom" x); [reflexivity|exact IH].
Qed.

Definition target_swap (a b : target) : Prop :=
  a = b \/ (a = TgFn (en_type E0) (en_fn E0) /\ b = TgFn (en_type E0) (en_fn E1)).
Lemma swap_target t a b k k' : swap t a b -> target_swap k k' ->
  target_swap (match a with Some f => TgFn t f | None => k end) (match b with Some f => TgFn t f | None => k' end).
Proof. intros [->|(-> & -> & ->)] K; [destruct b; [now left|exact K]|now right]. Qed.
Lemma swap_resolve1 x : target_swap (resolve1 P x) (resolve1 Q x).
Proof.
  rewrite !resolve1_reserved. destruct (reserved x); [now left|]. destruct rest_same as (-> & -> & -> & _).
  apply swap_target; [apply swap_fn|now left].
Qed.
Lemma swap_module t x a b : target_swap a b ->
  target_swap (match t, x with "Ordering", _ => TgVariant t x 0 | "u8", "MAX" => TgVal (VByte xff) | _, _ => a end)
    (match t, x with "Ordering", _ => TgVariant t x 0 | "u8", "MAX" => TgVal (VByte xff) | _, _ => b end).
Proof.
  intros S. repeat lazymatch goal with |- target_swap (match ?y with _ => _ end) _ => destruct y; try exact S end; now left.
Qed.
Lemma swap_resolve2 t x : target_swap (resolve2 P t x) (resolve2 Q t x).
Proof.
  unfold resolve2. apply swap_target; [apply swap_fn|]. pose proof (swap_module t x _ _ (swap_resolve1 x)) as S. revert S.
  generalize (resolve1 P x) (resolve1 Q x). intros a b S. destruct rest_same as (-> & -> & -> & _).
  destruct (find_enum (enums P) t); [now left|]. destruct (find_const (consts P) t x); [now left|].
  destruct (find_struct (structs P) t) as [[attrs fs]|]; [now left|]. exact S.
Qed.
Lemma swap_resolve p : target_swap (resolve P p) (resolve Q p).
Proof.
  destruct (resolve_shape p) as [(t & r & x & m & ->)|S].
  - cbn [resolve]. apply swap_target; [apply swap_qualified|now left].
  - rewrite !S. destruct rest_same as (_ & _ & _ & ->). destruct (rev p) as [|x [|t l]]; [now left|apply swap_resolve1|apply swap_resolve2].
Qed.
Lemma swap_muts f : muts P f = muts Q f.
Proof.
  unfold muts. destruct f; try reflexivity. destruct (swap_resolve p) as [->|[-> ->]]; [reflexivity|]. now rewrite same_muts.
Qed.
Lemma swap_method v m : method_path P v m = method_path Q v m.
Proof.
  destruct v; cbn [method_path]; try reflexivity.
  - now rewrite swap_try.
  - destruct (swap_fn t m) as [->|(_ & -> & ->)]; reflexivity.
  - destruct (swap_fn t m) as [->|(_ & -> & ->)]; reflexivity.
Qed.

(** One step, given that what it calls gives no answer or the same. *)
Section Step.
Variable M : nat.
Variables ev ev' : evaluator.
Hypothesis EV : forall e x, upto (ev e x) (ev' e x).
Variables cl cl' : caller.
Hypothesis CL : forall f args, upto (cl f args) (cl' f args).
Hypothesis RUN : forall args, upto (run_fn ev (en_type E0) (en_fn E0) args) (run_fn ev' (en_type E0) (en_fn E1) args).

Lemma swap_path e p : upto (eval_path P ev e p) (eval_path Q ev' e p).
Proof.
  unfold eval_path. destruct (match p with [x] => lookup x e | _ => None end); [apply upto_refl|].
  destruct (swap_resolve (self_path e p)) as [->|[-> ->]].
  - destruct (resolve Q (self_path e p)); try apply upto_refl. apply upto_bind; [apply EV|]. intros x. apply upto_refl.
  - rewrite same_name. apply upto_refl.
Qed.
Lemma swap_eval_step e x : upto (eval_step M P ev cl e x) (eval_step M Q ev' cl' e x).
Proof.
  destruct x; cbn [eval_step]; try apply upto_refl;
    repeat first
      [ apply upto_refl | apply EV | apply swap_path | apply upto_arms, EV | apply upto_for, EV | apply upto_stmts, EV
      | rewrite swap_method | rewrite swap_muts
      | apply upto_andthen; [|intros] | apply upto_looping; [|intros] | apply upto_scoped
      | apply upto_args; [exact EV|intros]
      | apply upto_fields; [exact EV|intros] | apply upto_pure
      | apply upto_bind; [first [apply CL | apply upto_method1, CL | apply upto_refl]|intros]
      | match goal with |- upto (match ?y with _ => _ end) _ => destruct y end ].
Qed.
Lemma swap_call_step f args : upto (call_step P ev cl f args) (call_step Q ev' cl' f args).
Proof.
  unfold call_step. destruct f; try apply upto_refl.
  - destruct (bind_pats ps args); [|apply upto_refl]. apply upto_bind; [apply EV|intros; apply upto_refl].
  - destruct (swap_resolve p) as [->|[-> ->]]; [|apply RUN].
    destruct (resolve Q p); try apply upto_refl; [apply upto_run_fn, EV|].
    destruct args as [|v [|? ?]]; try apply upto_refl. destruct v; try apply upto_refl;
      (apply upto_bind; [apply CL|intros; apply upto_refl]).
Qed.
End Step.

Theorem swap_run M k :
  (forall n args, upto (run_fn (eval M P n) (en_type E0) (en_fn E0) args) (run_fn (eval M Q (k + n)) (en_type E0) (en_fn E1) args)) ->
  forall n, (forall e x, upto (eval M P n e x) (eval M Q (k + n) e x)) /\
    (forall f args, upto (call M P n f args) (call M Q (k + n) f args)).
Proof.
  intros R. induction n as [|n [E C]]; [split; intros; apply upto_fuel|]. rewrite Nat.add_succ_r.
  split; intros; cbn [eval call]; [apply swap_eval_step|apply swap_call_step]; auto.
Qed.
End Swap.
