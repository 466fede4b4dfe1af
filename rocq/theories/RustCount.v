(** The interpreter of RustEval.v with a step counter: the same results (section 3), and how many steps a run takes.

    A step is the evaluation of one expression or one call.  The library functions that look at every byte of a text
    ([split_once], [to_owned], [Display::fmt] of a [str]) cost the length of the text besides; the others, slicing among
    them, and the patterns, whose size is bounded by that of the program, cost nothing more.  Each definition here is
    the one of RustEval.v named the same but for the [k], which says what it is for. *)
From Verif Require Import Base Validate RustSyntax RustEval.
Open Scope string_scope.
Open Scope nat_scope.
Open Scope list_scope.

(** * 1. Counting *)

(** The steps so far, and the outcome. *)
Definition counted (A : Type) : Type := nat * outcome A.
Definition kbind {A B} (p : counted A) (f : A -> nat -> counted B) : counted B :=
  match p with
  | (s, Ret a) => f a s
  | (s, Panic) => (s, Panic)
  | (s, OutOfFuel) => (s, OutOfFuel)
  end.
Definition kres := counted (env * flow).

Definition kdone (e : env) (v : value) (s : nat) : kres := (s, Ret (e, Done v)).
Definition kstuck {A} (s : nat) : counted A := (s, OutOfFuel).
Definition kandthen (r : kres) (k : env -> value -> nat -> kres) : kres :=
  kbind r (fun x s => match snd x with Done v => k (fst x) v s | _ => (s, Ret x) end).
Definition kpure (e : env) (r : outcome value) (s : nat) : kres := (s, pure e r).
Definition kscoped (e : env) (r : kres) : kres := kbind r (fun x s => (s, Ret (restore e (fst x), snd x))).
Definition klooping (r : kres) (k : env -> nat -> kres) : kres :=
  kbind r (fun x s =>
    match snd x with
    | Done _ => k (fst x) s
    | Broke v => kdone (fst x) v s
    | Returned _ => (s, Ret x)
    end).

(** What a library function costs besides the call. *)
Definition charge (v : value) (m : string) (s : nat) : nat :=
  match v, m with
  | VStr t, "split_once" => length t + s
  | VStr t, "to_owned" => length t + s
  | VStr t, "Display::fmt" => length t + s
  | _, _ => s
  end.

(** * 2. The interpreter *)

Definition kevaluator := env -> expr -> nat -> kres.
Definition kcaller := value -> list value -> nat -> counted (value * list value).

Definition kmethod1 (call : kcaller) (v : value) (m : string) (args : list value) (s : nat)
  : counted (value * list value) :=
  match v, m, args with
  | VEnum "Option" "Some" [x], "map", [f] => kbind (call f [x] s) (fun r s => (s, Ret (some (fst r), [])))
  | VEnum "Option" "None" [], "map", [_] => (s, Ret (none, []))
  | VEnum "Option" "Some" [x], "and_then", [f] => kbind (call f [x] s) (fun r s => (s, Ret (fst r, [])))
  | VEnum "Option" "None" [], "and_then", [_] => (s, Ret (none, []))
  | VEnum "Result" "Ok" [x], "map_err", [_] => (s, Ret (okv x, []))
  | VEnum "Result" "Err" [x], "map_err", [f] => kbind (call f [x] s) (fun r s => (s, Ret (errv (fst r), [])))
  | _, _, _ => (charge v m s, method0 v m args)
  end.

Fixpoint keval_args (ev : kevaluator) (e : env) (es : list expr) (k : env -> list value -> nat -> kres) (s : nat)
  : kres :=
  match es with
  | [] => k e [] s
  | x :: es' => kandthen (ev e x s) (fun e v => keval_args ev e es' (fun e vs => k e (v :: vs)))
  end.
Fixpoint keval_fields (ev : kevaluator) (e : env) (fs : list (string * expr))
  (k : env -> list (string * value) -> nat -> kres) (s : nat) : kres :=
  match fs with
  | [] => k e [] s
  | (f, x) :: fs' => kandthen (ev e x s) (fun e v => keval_fields ev e fs' (fun e vs => k e ((f, v) :: vs)))
  end.
Fixpoint keval_arms (ev : kevaluator) (e : env) (v : value) (arms : list (pat * expr)) (s : nat) : kres :=
  match arms with
  | (p, x) :: arms' =>
    match match_pat p v with
    | Some b => kscoped e (ev (b ++ e) x s)
    | None => keval_arms ev e v arms' s
    end
  | [] => kstuck s
  end.
Fixpoint keval_for (ev : kevaluator) (e : env) (p : pat) (b : expr) (l : list value) (s : nat) : kres :=
  match l with
  | v :: l' =>
    match match_pat p v with
    | Some d => klooping (kscoped e (ev (d ++ e) b s)) (fun e => keval_for ev e p b l')
    | None => kstuck s
    end
  | [] => kdone e VUnit s
  end.
Fixpoint keval_stmts (ev : kevaluator) (e : env) (l : list stmt) (t : option expr) (s : nat) : kres :=
  match l with
  | SLet p x :: l' =>
    kandthen (ev e x s) (fun e v s =>
      match match_pat p v with Some b => keval_stmts ev (b ++ e) l' t s | None => kstuck s end)
  | SExpr x :: l' => kandthen (ev e x s) (fun e _ => keval_stmts ev e l' t)
  | [] => match t with Some x => ev e x s | None => kdone e VUnit s end
  end.

Definition keval_path (P : program) (ev : kevaluator) (e : env) (p : list string) (s : nat) : kres :=
  match (match p with [x] => lookup x e | _ => None end) with
  | Some v => kdone e v s
  | None =>
    match resolve P (self_path e p) with
    | TgVariant t c 0 => kdone e (VEnum t c []) s
    | TgConst t x =>
      kbind (ev [("Self", VTy t)] x s) (fun r s => match snd r with Done v => kdone e v s | _ => kstuck s end)
    | TgVal v => kdone e v s
    | TgFn t f => kdone e (VPath (if String.eqb t "" then [fn_name f] else [t; fn_name f])) s
    | TgNone => kstuck s
    | _ => kdone e (VPath (self_path e p)) s
    end
  end.

Definition keval_step (M : nat) (P : program) (ev : kevaluator) (call : kcaller) (e : env) (x : expr) (s : nat) : kres :=
  match x with
  | EInt n suffix => kdone e (if String.eqb suffix "u32" then VU32 n else VNat (N.to_nat n)) s
  | EByte b => kdone e (VByte b) s
  | EChar c => kdone e (VChar c) s
  | EStr t => kdone e (VStr t) s
  | EBytes t => kdone e (VBytes t) s
  | EBool b => kdone e (VBool b) s
  | EPath p => keval_path P ev e p s
  | EField a f => kandthen (ev e a s) (fun e v => kpure e (field v f))
  | EIndex a i => kandthen (ev e a s) (fun e v s => kandthen (ev e i s) (fun e w => kpure e (index_value v w)))
  | ERange a b =>
    match a, b with
    | Some a, Some b =>
      kandthen (ev e a s) (fun e v s => kandthen (ev e b s) (fun e w => kdone e (make_range (Some v) (Some w))))
    | Some a, None => kandthen (ev e a s) (fun e v => kdone e (make_range (Some v) None))
    | None, Some b => kandthen (ev e b s) (fun e w => kdone e (make_range None (Some w)))
    | None, None => kdone e (make_range None None) s
    end
  | ECall f args =>
    kandthen (ev e f s) (fun e v =>
      keval_args ev e args (fun e vs s =>
        kbind (call v vs s) (fun r => kdone (write_back e args (muts P v) (snd r)) (fst r))))
  | EMethod a m args =>
    kandthen (ev e a s) (fun e v =>
      keval_args ev e args (fun e vs s =>
        match method_path P v m with
        | Some p =>
          kbind (call (VPath p) (v :: vs) s) (fun r =>
            kdone (write_back e (a :: args) (muts P (VPath p)) (snd r)) (fst r))
        | None =>
          kbind (kmethod1 call v m vs s) (fun r => kdone (write_back e (a :: args) (method_muts m) (snd r)) (fst r))
        end))
  | EUn UNot a =>
    kandthen (ev e a s) (fun e v s => match v with VBool b => kdone e (VBool (negb b)) s | _ => kstuck s end)
  | EUn _ a => ev e a s
  | EBin BAnd a b =>
    kandthen (ev e a s) (fun e v s =>
      match v with VBool x => if x then ev e b s else kdone e (VBool false) s | _ => kstuck s end)
  | EBin BOr a b =>
    kandthen (ev e a s) (fun e v s =>
      match v with VBool x => if x then kdone e (VBool true) s else ev e b s | _ => kstuck s end)
  | EBin o a b => kandthen (ev e a s) (fun e v s => kandthen (ev e b s) (fun e w => kpure e (binary M o v w)))
  | ECast a t => kandthen (ev e a s) (fun e v => kpure e (cast v t))
  | EAssign None l r =>
    kandthen (ev e r s) (fun e v s => match assign e l v with Some e' => kdone e' VUnit s | None => kstuck s end)
  | EAssign (Some o) l r =>
    kandthen (ev e r s) (fun e w s =>
      kandthen (ev e l s) (fun e v s =>
        kbind (s, binary M o v w) (fun x s =>
          match assign e l x with Some e' => kdone e' VUnit s | None => kstuck s end)))
  | EIf c t f =>
    kandthen (ev e c s) (fun e v s =>
      match v with
      | VBool b => if b then ev e t s else match f with Some f => ev e f s | None => kdone e VUnit s end
      | _ => kstuck s
      end)
  | EMatch a arms => kandthen (ev e a s) (fun e v => keval_arms ev e v arms)
  | EMatches a p =>
    kandthen (ev e a s) (fun e v => kdone e (VBool (match match_pat p v with Some _ => true | None => false end)))
  | EWhile c b =>
    kandthen (ev e c s) (fun e v s =>
      match v with
      | VBool true => klooping (ev e b s) (fun e => ev e (EWhile c b))
      | VBool false => kdone e VUnit s
      | _ => kstuck s
      end)
  | ELoop b => klooping (ev e b s) (fun e => ev e (ELoop b))
  | EFor p a b =>
    kandthen (ev e a s) (fun e v s => match items v with Some l => keval_for ev e p b l s | None => kstuck s end)
  | EBreak a =>
    match a with
    | Some a => kandthen (ev e a s) (fun e v s => (s, Ret (e, Broke v)))
    | None => (s, Ret (e, Broke VUnit))
    end
  | EReturn a =>
    match a with
    | Some a => kandthen (ev e a s) (fun e v s => (s, Ret (e, Returned v)))
    | None => (s, Ret (e, Returned VUnit))
    end
  | EBlock l t => kscoped e (keval_stmts ev e l t s)
  | EClosure ps b => kdone e (VClosure e ps b) s
  | EStruct p fs =>
    keval_fields ev e fs (fun e l => kdone e (VStruct (last (self_path e p) "") l)) s
  | ETuple l => match l with [] => kdone e VUnit s | _ => keval_args ev e l (fun e vs => kdone e (VTuple vs)) s end
  | EArray l => keval_args ev e l (fun e vs => kdone e (VList vs)) s
  end.

Definition krun_fn (ev : kevaluator) (t : string) (f : fn) (args : list value) (s : nat)
  : counted (value * list value) :=
  match bind_params (param_names f) args with
  | Some e =>
    kbind (ev (update "Self" (VTy t) e) (fn_body f) s) (fun r s =>
      match snd r with
      | Done v | Returned v => (s, Ret (v, keep (fn_muts f) (map snd (fst r))))
      | Broke _ => kstuck s
      end)
  | None => kstuck s
  end.

Definition kcall_step (P : program) (ev : kevaluator) (call : kcaller) (f : value) (args : list value) (s : nat)
  : counted (value * list value) :=
  match f with
  | VClosure e ps b =>
    match bind_pats ps args with
    | Some d =>
      kbind (ev (d ++ e) b s) (fun r s =>
        match snd r with Done v | Returned v => (s, Ret (v, [])) | Broke _ => kstuck s end)
    | None => kstuck s
    end
  | VPath p =>
    match resolve P p, args with
    | TgFn t g, _ => krun_fn ev t g args s
    | TgVariant t c (S _), _ => (s, Ret (VEnum t c args, []))
    | TgStruct t, [v] => (s, Ret (tuple1 t v, []))
    | TgNewUnchecked t, [VStr x] => (s, Ret (tuple1 t (VStr x), []))
    | TgNew t a, [v] =>
      match v with
      | VStr x | VBytes x =>
        kbind (call (VPath [("grammar::" ++ a)%string; "validate_bytes"]) [VBytes x] s) (fun r s =>
          match fst r with
          | VBool b => (s, Ret (if b then okv (tuple1 t (VStr x)) else errv (tuple1 ("Invalid" ++ t)%string v), []))
          | _ => kstuck s
          end)
      | _ => kstuck s
      end
    | TgDefault t fs, [] => (s, Ret (VStruct t (map (fun f => (fst f, default_of (snd f))) fs), []))
    | TgDecode, [VBytes x; VNat i] =>
      (s, Ret (match decode_utf8_char x i with
               | Some (c, n) => okv (VTuple [VChar c; VNat n])
               | None => errv VUnit
               end, []))
    | TgFromUtf8, [VBytes x] => (s, Ret (VStr x, []))
    | _, _ => kstuck s
    end
  | VTy t => match args with [v] => (s, Ret (tuple1 t v, [])) | _ => kstuck s end
  | _ => kstuck s
  end.

(** A step each time. *)
Fixpoint keval (M : nat) (P : program) (n : nat) (e : env) (x : expr) (s : nat) {struct n} : kres :=
  match n with
  | O => kstuck s
  | S n => keval_step M P (keval M P n) (kcall M P n) e x (S s)
  end
with kcall (M : nat) (P : program) (n : nat) (f : value) (args : list value) (s : nat) {struct n}
  : counted (value * list value) :=
  match n with
  | O => kstuck s
  | S n => kcall_step P (keval M P n) (kcall M P n) f args (S s)
  end.

(** How many steps the call [f(args)] takes. *)
Definition steps (M : nat) (P : program) (n : nat) (f : value) (args : list value) : nat := fst (kcall M P n f args 0).

(** * 3. The same results *)

(** [m] takes some number of steps, whatever came before, and gives [r]. *)
Definition counts {A} (m : nat -> counted A) (r : outcome A) : Prop := exists c, forall s, m s = (c + s, r).

Lemma counts_end {A} (r : outcome A) : counts (fun s => (s, r)) r.
Proof. now exists 0. Qed.
Lemma counts_more {A} c (r : outcome A) : counts (fun s => (c + s, r)) r.
Proof. now exists c. Qed.
Lemma counts_bind {A B} (m : nat -> counted A) x (f : A -> nat -> counted B) g :
  counts m x -> (forall a, counts (f a) (g a)) -> counts (fun s => kbind (m s) f) (let! a := x in g a).
Proof.
  intros [c H] F. destruct x as [a| |]; cbn [bind].
  - destruct (F a) as [d E]. exists (d + c). intro s. rewrite H. cbn [kbind]. rewrite E. f_equal. lia.
  - exists c. intro s. now rewrite H.
  - exists c. intro s. now rewrite H.
Qed.
Lemma counts_andthen m x f g :
  counts m x -> (forall e v, counts (f e v) (g e v)) -> counts (fun s => kandthen (m s) f) (andthen x g).
Proof.
  intros H F. unfold kandthen, andthen. apply counts_bind; [exact H|].
  intros [e []]; cbn [fst snd]; [apply F|apply counts_end|apply counts_end].
Qed.
Lemma counts_scoped e m x : counts m x -> counts (fun s => kscoped e (m s)) (scoped e x).
Proof. intros H. unfold kscoped, scoped. apply counts_bind; [exact H|]. intro a. apply counts_end. Qed.
Lemma counts_looping m x f g :
  counts m x -> (forall e, counts (f e) (g e)) -> counts (fun s => klooping (m s) f) (looping x g).
Proof.
  intros H F. unfold klooping, looping. apply counts_bind; [exact H|].
  intros [e []]; cbn [fst snd]; [apply F|apply counts_end|apply counts_end].
Qed.
Lemma counts_charge {A} v m (r : outcome A) : counts (fun s => (charge v m s, r)) r.
Proof.
  assert (exists c, forall s, charge v m s = c + s) as [c H].
  2:{ exists c. intro s. now rewrite H. }
  destruct v; try (now exists 0). cbn [charge].
  repeat match goal with |- context [match ?x with _ => _ end] =>
    lazymatch x with ?y => is_var y; destruct y end end;
  first [now exists 0 | now exists (length s)].
Qed.

Section Step.
  Variable M : nat.
  Variable P : program.
  Variable kev : kevaluator.
  Variable kcl : kcaller.
  Variable ev : evaluator.
  Variable cl : caller.
  Hypothesis E : forall e x, counts (kev e x) (ev e x).
  Hypothesis C : forall f l, counts (kcl f l) (cl f l).

  Lemma counts_args : forall es e k k', (forall e l, counts (k e l) (k' e l)) ->
    counts (keval_args kev e es k) (eval_args ev e es k').
  Proof.
    induction es as [|x es IH]; intros e k k' K; cbn [keval_args eval_args]; [apply K|].
    apply (counts_andthen (kev e x)); [apply E|]. intros e' v. apply IH. intros. apply K.
  Qed.
  Lemma counts_fields : forall fs e k k', (forall e l, counts (k e l) (k' e l)) ->
    counts (keval_fields kev e fs k) (eval_fields ev e fs k').
  Proof.
    induction fs as [|[f x] fs IH]; intros e k k' K; cbn [keval_fields eval_fields]; [apply K|].
    apply (counts_andthen (kev e x)); [apply E|]. intros e' v. apply IH. intros. apply K.
  Qed.
  Lemma counts_arms v e : forall arms, counts (keval_arms kev e v arms) (eval_arms ev e v arms).
  Proof.
    induction arms as [|[p x] arms IH]; cbn [keval_arms eval_arms]; [apply counts_end|].
    destruct (match_pat p v); [|exact IH]. apply (counts_scoped e (kev _ x)), E.
  Qed.
  Lemma counts_for p b : forall l e, counts (keval_for kev e p b l) (eval_for ev e p b l).
  Proof.
    induction l as [|v l IH]; intro e; cbn [keval_for eval_for]; [apply counts_end|].
    destruct (match_pat p v); [|apply counts_end].
    apply (counts_looping (fun s => kscoped e (kev _ b s))); [apply (counts_scoped e (kev _ b)), E|exact IH].
  Qed.
  Lemma counts_stmts t : forall l e, counts (keval_stmts kev e l t) (eval_stmts ev e l t).
  Proof.
    induction l as [|[p x|x] l IH]; intro e; cbn [keval_stmts eval_stmts].
    - destruct t; [apply E|apply counts_end].
    - apply (counts_andthen (kev e x)); [apply E|]. intros e' v. destruct (match_pat p v); [apply IH|apply counts_end].
    - apply (counts_andthen (kev e x)); [apply E|]. intros e' v. apply IH.
  Qed.
  Lemma counts_path e p : counts (keval_path P kev e p) (eval_path P ev e p).
  Proof.
    unfold keval_path, eval_path. destruct (match p with [x] => lookup x e | _ => None end); [apply counts_end|].
    destruct (resolve P (self_path e p)) as [|t c [|a]| | | | | | | | |]; try apply counts_end.
    all: try (apply (counts_bind (kev _ _)); [apply E|]; intros [? []]; apply counts_end).
  Qed.
  Lemma counts_method1 v m l : counts (kmethod1 kcl v m l) (method1 cl v m l).
  Proof.
    unfold kmethod1, method1.
    repeat match goal with
    | |- counts (fun s => (s, ?r)) ?r => apply counts_end
    | |- counts (fun s => (charge ?v ?m s, ?r)) ?r => apply counts_charge
    | |- counts (fun s => kbind (kcl ?f ?l s) _) _ => apply (counts_bind (kcl f l)); [apply C|]; intro; apply counts_end
    | |- context [match ?x with _ => _ end] => is_var x; destruct x
    end.
  Qed.

  Ltac by_case :=
    lazymatch goal with
    | |- counts (fun s => (s, ?r)) _ => apply counts_end
    | |- counts (fun s => kbind (s, ?r) ?f) _ => apply (counts_bind (fun s => (s, r))); [apply counts_end|intro]
    | |- counts (kdone _ _) _ => apply counts_end
    | |- counts (fun s => kdone _ _ s) _ => apply counts_end
    | |- counts (kpure _ _) _ => apply counts_end
    | |- counts kstuck _ => apply counts_end
    | |- counts (fun s => kstuck s) _ => apply counts_end
    | |- counts (fun s => kev ?e ?x s) _ => apply E
    | |- counts (kev ?e ?x) _ => apply E
    | |- counts (fun s => keval_path P kev ?e ?p s) _ => apply counts_path
    | |- counts (fun s => keval_arms kev ?e ?p ?a s) _ => apply counts_arms
    | |- counts (keval_arms kev ?e ?p ?a) _ => apply counts_arms
    | |- counts (fun s => keval_for kev ?e ?p ?a ?l s) _ => apply counts_for
    | |- counts (fun s => keval_args kev ?e ?l ?k s) _ => apply counts_args; intros
    | |- counts (keval_args kev ?e ?l ?k) _ => apply counts_args; intros
    | |- counts (fun s => keval_fields kev ?e ?l ?k s) _ => apply counts_fields; intros
    | |- counts (fun s => kandthen (kev ?e ?x s) _) _ => apply (counts_andthen (kev e x)); [apply E|intros]
    | |- counts (fun s => kscoped ?e (keval_stmts kev ?e ?l ?t s)) _ =>
      apply (counts_scoped e (keval_stmts kev e l t)), counts_stmts
    | |- counts (fun s => klooping (kev ?e ?x s) _) _ => apply (counts_looping (kev e x)); [apply E|intros]
    | |- counts (fun s => kbind (kev ?e ?x s) _) _ => apply (counts_bind (kev e x)); [apply E|intros]
    | |- counts (fun s => kbind (kcl ?f ?l s) _) _ => apply (counts_bind (kcl f l)); [apply C|intros]
    | |- counts (fun s => kbind (kmethod1 kcl ?v ?m ?l s) _) _ =>
      apply (counts_bind (kmethod1 kcl v m l)); [apply counts_method1|intros]
    | |- counts (fun s => match ?x with _ => _ end) _ => destruct x
    | |- counts (fun s => if ?x then _ else _) _ => destruct x
    end.
  Lemma counts_eval_step e x : counts (keval_step M P kev kcl e x) (eval_step M P ev cl e x).
  Proof. destruct x; cbv beta iota delta [keval_step eval_step]; repeat by_case. Qed.
  Lemma counts_call_step f l : counts (kcall_step P kev kcl f l) (call_step P ev cl f l).
  Proof.
    destruct f; cbv beta iota delta [kcall_step call_step krun_fn run_fn]; repeat by_case.
  Qed.
End Step.

Theorem counts_run M P : forall n,
  (forall e x, counts (keval M P n e x) (eval M P n e x)) /\ (forall f l, counts (kcall M P n f l) (call M P n f l)).
Proof.
  induction n as [|n [E C]]; [split; intros; apply counts_end|]. split.
  - intros e x. destruct (counts_eval_step M P _ _ _ _ E C e x) as [c H]. exists (c + 1). intro s.
    cbn [keval eval]. rewrite H. f_equal. lia.
  - intros f l. destruct (counts_call_step P _ _ _ _ E C f l) as [c H]. exists (c + 1). intro s.
    cbn [kcall call]. rewrite H. f_equal. lia.
Qed.
(** Counting changes no result. *)
Theorem kcall_call M P n f l s : kcall M P n f l s = (steps M P n f l + s, call M P n f l).
Proof.
  destruct (proj2 (counts_run M P n) f l) as [c H]. unfold steps. rewrite !H. cbn [fst]. f_equal. lia.
Qed.
Theorem keval_eval M P n e x s : keval M P n e x s = (fst (keval M P n e x 0) + s, eval M P n e x).
Proof.
  destruct (proj1 (counts_run M P n) e x) as [c H]. rewrite !H. cbn [fst]. f_equal. lia.
Qed.
