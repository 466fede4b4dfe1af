(** More fuel and a larger machine give the same answer, for every program. *)
From Verif Require Import Base RustSyntax RustEval.
Open Scope string_scope.
Open Scope nat_scope.
Open Scope list_scope.

(** No answer, or the same. *)
Definition upto {A} (a b : outcome A) : Prop := a = OutOfFuel \/ a = b.

Lemma upto_refl {A} (a : outcome A) : upto a a. Proof. now right. Qed.
Lemma upto_fuel {A} (b : outcome A) : upto OutOfFuel b. Proof. now left. Qed.
Lemma upto_trans {A} (a b c : outcome A) : upto a b -> upto b c -> upto a c.
Proof. intros [-> | ->] H; [now left|exact H]. Qed.
Lemma upto_bind {A B} (a b : outcome A) (k l : A -> outcome B) :
  upto a b -> (forall x, upto (k x) (l x)) -> upto (bind a k) (bind b l).
Proof. intros [-> | ->] H; [now left|]. destruct b; cbn [bind]; [apply H|apply upto_refl..]. Qed.

Lemma upto_andthen r r' k k' : upto r r' -> (forall e v, upto (k e v) (k' e v)) -> upto (andthen r k) (andthen r' k').
Proof. intros H K. apply upto_bind; [exact H|]. intros [e []]; cbn [fst snd]; auto using upto_refl. Qed.
Lemma upto_looping r r' k k' : upto r r' -> (forall e, upto (k e) (k' e)) -> upto (looping r k) (looping r' k').
Proof. intros H K. apply upto_bind; [exact H|]. intros [e []]; cbn [fst snd]; auto using upto_refl. Qed.
Lemma upto_scoped e r r' : upto r r' -> upto (scoped e r) (scoped e r').
Proof. intros H. apply upto_bind; [exact H|]. intros x. apply upto_refl. Qed.
Lemma upto_pure e r r' : upto r r' -> upto (pure e r) (pure e r').
Proof. intros H. apply upto_bind; [exact H|]. intros x. apply upto_refl. Qed.

Lemma upto_fit M M' n : M <= M' -> upto (fit M n) (fit M' n).
Proof.
  intros H. unfold fit. destruct (Nat.leb_spec n M); [|apply upto_fuel].
  destruct (Nat.leb_spec n M'); [apply upto_refl|lia].
Qed.
Lemma upto_binary M M' o a b : M <= M' -> upto (binary M o a b) (binary M' o a b).
Proof.
  intros H. unfold binary. destruct o; try apply upto_refl; destruct a; try apply upto_refl; destruct b; try apply upto_refl;
    try (apply upto_fit, H).
Qed.

Section Upto.
Variables M M' : nat.
Hypothesis MM : M <= M'.
Variable P : program.
Variables ev ev' : evaluator.
Hypothesis EV : forall e x, upto (ev e x) (ev' e x).
Variables cl cl' : caller.
Hypothesis CL : forall f args, upto (cl f args) (cl' f args).

Lemma upto_args es : forall e k k', (forall e vs, upto (k e vs) (k' e vs)) -> upto (eval_args ev e es k) (eval_args ev' e es k').
Proof. induction es as [|x es IH]; intros e k k' K; cbn [eval_args]; [apply K|]. apply upto_andthen; auto. Qed.
Lemma upto_fields fs : forall e k k', (forall e vs, upto (k e vs) (k' e vs)) ->
  upto (eval_fields ev e fs k) (eval_fields ev' e fs k').
Proof. induction fs as [|[f x] fs IH]; intros e k k' K; cbn [eval_fields]; [apply K|]. apply upto_andthen; auto. Qed.
Lemma upto_arms e v arms : upto (eval_arms ev e v arms) (eval_arms ev' e v arms).
Proof.
  induction arms as [|[p x] arms IH]; cbn [eval_arms]; [apply upto_refl|].
  destruct (match_pat p v); [apply upto_scoped, EV|exact IH].
Qed.
Lemma upto_for p b l : forall e, upto (eval_for ev e p b l) (eval_for ev' e p b l).
Proof.
  induction l as [|v l IH]; intros e; cbn [eval_for]; [apply upto_refl|].
  destruct (match_pat p v); [|apply upto_refl]. apply upto_looping; [apply upto_scoped, EV|auto].
Qed.
Lemma upto_stmts t l : forall e, upto (eval_stmts ev e l t) (eval_stmts ev' e l t).
Proof.
  induction l as [|[p x|x] l IH]; intros e; cbn [eval_stmts].
  - destruct t; [apply EV|apply upto_refl].
  - apply upto_andthen; [apply EV|]. intros e' v. destruct (match_pat p v); [apply IH|apply upto_refl].
  - apply upto_andthen; [apply EV|]. intros. apply IH.
Qed.
Lemma upto_path e p : upto (eval_path P ev e p) (eval_path P ev' e p).
Proof.
  unfold eval_path. destruct (match p with [x] => lookup x e | _ => None end); [apply upto_refl|].
  destruct (resolve P (self_path e p)); try apply upto_refl.
  apply upto_bind; [apply EV|]. intros x. apply upto_refl.
Qed.
Lemma upto_method1 v m args : upto (method1 cl v m args) (method1 cl' v m args).
Proof.
  unfold method1. generalize (method0 v m args). intros L.
  repeat lazymatch goal with |- upto (match ?x with _ => _ end) _ => destruct x; try apply upto_refl end;
    (apply upto_bind; [apply CL|intros; apply upto_refl]).
Qed.

Lemma upto_eval_step e x : upto (eval_step M P ev cl e x) (eval_step M' P ev' cl' e x).
Proof.
  destruct x; cbn [eval_step]; try apply upto_refl;
    repeat first
      [ apply upto_refl | apply EV | apply upto_path | apply upto_arms | apply upto_for | apply upto_stmts
      | apply upto_andthen; [|intros] | apply upto_looping; [|intros] | apply upto_scoped | apply upto_args; intros
      | apply upto_fields; intros | apply upto_pure | apply upto_binary, MM
      | apply upto_bind; [first [apply CL | apply upto_method1 | apply upto_binary, MM]|intros]
      | match goal with |- upto (match ?y with _ => _ end) _ => destruct y end ].
Qed.
Lemma upto_run_fn t f args : upto (run_fn ev t f args) (run_fn ev' t f args).
Proof.
  unfold run_fn. destruct (bind_params _ _); [|apply upto_refl]. apply upto_bind; [apply EV|]. intros; apply upto_refl.
Qed.
Lemma upto_call_step f args : upto (call_step P ev cl f args) (call_step P ev' cl' f args).
Proof.
  unfold call_step. destruct f; try apply upto_refl.
  - destruct (bind_pats ps args); [|apply upto_refl]. apply upto_bind; [apply EV|intros; apply upto_refl].
  - destruct (resolve P p); try apply upto_refl; [apply upto_run_fn|].
    destruct args as [|v [|? ?]]; try apply upto_refl. destruct v; try apply upto_refl;
      (apply upto_bind; [apply CL|intros; apply upto_refl]).
Qed.
End Upto.

Lemma upto_run P M M' : M <= M' -> forall n n', n <= n' ->
  (forall e x, upto (eval M P n e x) (eval M' P n' e x)) /\ (forall f args, upto (call M P n f args) (call M' P n' f args)).
Proof.
  intros MM. induction n as [|n IH]; intros n' N; [split; intros; apply upto_fuel|].
  destruct n' as [|n']; [lia|]. destruct (IH n' ltac:(lia)) as [E C].
  split; intros; cbn [eval call]; [apply upto_eval_step|apply upto_call_step]; auto.
Qed.
Lemma upto_call P M M' n n' f args : M <= M' -> n <= n' -> upto (call M P n f args) (call M' P n' f args).
Proof. intros MM N. now apply upto_run. Qed.
