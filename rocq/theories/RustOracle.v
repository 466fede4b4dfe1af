(** The interpreter of RustEval.v with the automata taken from outside, and how two such machines compare. *)
From Verif Require Import Base Validate Normal NoOverflow RustSyntax RustEval.
Open Scope string_scope.
Open Scope nat_scope.
Open Scope list_scope.

(** * 1. Machines *)

(** [call_step], where what [A::validate_bytes] answers is left open. *)
Definition call_step_g (nw : caller -> string -> bytes -> outcome bool) (P : program) (ev : evaluator) (call : caller)
  (f : value) (args : list value) : outcome (value * list value) :=
  match f with
  | VPath p =>
    match resolve P p, args with
    | TgNew t a, [v] =>
      match v with
      | VStr s | VBytes s =>
        let! b := nw call a s in
        Ret (if b then okv (tuple1 t (VStr s)) else errv (tuple1 ("Invalid" ++ t)%string v), [])
      | _ => OutOfFuel
      end
    | _, _ => call_step P ev call f args
    end
  | _ => call_step P ev call f args
  end.

(** The program runs its own [validate_bytes]. *)
Definition nw_own (call : caller) (a : string) (s : bytes) : outcome bool :=
  let! r := call (VPath [("grammar::" ++ a)%string; "validate_bytes"]) [VBytes s] in
  match fst r with VBool b => Ret b | _ => OutOfFuel end.
(** [validate_bytes] answers [V]. *)
Definition nw_with (V : string -> bytes -> bool) (call : caller) (a : string) (s : bytes) : outcome bool := Ret (V a s).

Lemma call_step_own P ev call f args : call_step P ev call f args = call_step_g nw_own P ev call f args.
Proof.
  unfold call_step_g, nw_own. destruct f; try reflexivity. cbn [call_step].
  destruct (resolve P p) eqn:E; try reflexivity. destruct args as [|v [|w args]]; try reflexivity.
  destruct v; try reflexivity;
    (match goal with |- context [call ?a ?b] => destruct (call a b) as [[r l]| |] end;
     cbn [bind fst]; [destruct r|..]; reflexivity).
Qed.

(** * 2. Programs and values that do not mention some names *)

Section Names.
Variable ok : string -> bool.
(** And texts that are not too long. *)
Variable okt : bytes -> bool.

Fixpoint ok_expr (x : expr) : bool :=
  match x with
  | EInt _ _ | EByte _ | EChar _ | EBool _ => true
  | EStr s | EBytes s => length s <=? 60
  | EPath p => forallb ok p
  | EField a _ => ok_expr a
  | EIndex a i => ok_expr a && ok_expr i
  | ERange a b => match a with Some a => ok_expr a | None => true end && match b with Some b => ok_expr b | None => true end
  | ECall f args => ok_expr f && forallb ok_expr args
  | EMethod a m args => ok m && ok_expr a && forallb ok_expr args
  | EUn _ a => ok_expr a
  | EBin _ a b => ok_expr a && ok_expr b
  | ECast a _ => ok_expr a
  | EAssign _ l r => ok_expr l && ok_expr r
  | EIf c t f => ok_expr c && ok_expr t && match f with Some f => ok_expr f | None => true end
  | EMatch a arms => ok_expr a && forallb (fun r => ok_expr (snd r)) arms
  | EMatches a _ => ok_expr a
  | EWhile c b => ok_expr c && ok_expr b
  | ELoop b => ok_expr b
  | EFor _ a b => ok_expr a && ok_expr b
  | EBreak a => match a with Some a => ok_expr a | None => true end
  | EReturn a => match a with Some a => ok_expr a | None => true end
  | EBlock l t => forallb ok_stmt l && match t with Some t => ok_expr t | None => true end
  | EClosure _ b => ok_expr b
  | EStruct p fs => forallb ok p && forallb (fun f => ok_expr (snd f)) fs
  | ETuple l | EArray l => forallb ok_expr l
  end
with ok_stmt (s : stmt) : bool := match s with SLet _ x | SExpr x => ok_expr x end.

Fixpoint ok_value (v : value) : bool :=
  match v with
  | VList l | VTuple l => forallb ok_value l
  | VStruct t fs => ok t && forallb (fun f => ok_value (snd f)) fs
  | VEnum t _ l => ok t && forallb ok_value l
  | VClosure e _ b => forallb (fun f => ok_value (snd f)) e && ok_expr b
  | VPath p => forallb ok p
  | VTy t => ok t
  | VStr s | VBytes s | VChars s => okt s
  | _ => true
  end.
Definition ok_env (e : env) : bool := forallb (fun f => ok_value (snd f)) e.
Definition ok_fn (f : fn) : bool := ok (fn_name f) && ok_expr (fn_body f).
Definition ok_target (g : target) : bool :=
  match g with
  | TgFn t f => ok t && ok_fn f
  | TgVariant t _ _ | TgStruct t | TgNew t _ | TgNewUnchecked t | TgDefault t _ => ok t
  | TgConst t x => ok t && ok_expr x
  | TgVal v => ok_value v
  | TgDecode | TgFromUtf8 | TgNone => true
  end.
Definition ok_flow (r : env * flow) : Prop :=
  ok_env (fst r) = true /\ match snd r with Done v | Returned v | Broke v => ok_value v = true end.
Definition ok_result (r : value * list value) : Prop := ok_value (fst r) = true /\ forallb ok_value (snd r) = true.

(** * 3. Comparing the results of a run with those of a family of runs *)

(** [sim good a b] relates a result [a] and those of a family of runs, by fuel; [good] holds of the value of [a].  What is
    used of it: *)
Variable sim : forall {A : Type}, (A -> Prop) -> outcome A -> (nat -> outcome A) -> Prop.
Hypothesis sim_same : forall A (G : A -> Prop) a, (forall x, a = Ret x -> G x) -> sim G a (fun _ => a).
Hypothesis sim_bind : forall A B (G : A -> Prop) (G' : B -> Prop) a b k k',
  sim G a b -> (forall x, G x -> sim G' (k x) (fun m => k' m x)) -> sim G' (bind a k) (fun m => bind (b m) (k' m)).
Lemma sim_fuel {A} (G : A -> Prop) : sim G OutOfFuel (fun _ => OutOfFuel).
Proof. apply sim_same. discriminate. Qed.
Lemma sim_ret {A} (G : A -> Prop) x : G x -> sim G (Ret x) (fun _ => Ret x).
Proof. intros H. apply sim_same. intros y [= <-]. exact H. Qed.
Lemma sim_andthen r r' k k' :
  sim ok_flow r r' ->
  (forall e v, ok_env e = true -> ok_value v = true -> sim ok_flow (k e v) (fun m => k' m e v)) ->
  sim ok_flow (andthen r k) (fun m => andthen (r' m) (k' m)).
Proof.
  intros H K. unfold andthen.
  apply (sim_bind _ _ ok_flow ok_flow r r' (fun x => match snd x with Done v => k (fst x) v | _ => Ret x end)
           (fun m x => match snd x with Done v => k' m (fst x) v | _ => Ret x end) H).
  intros [e [v|v|v]] [X Y]; cbn [fst snd] in *; [now apply K|..]; now apply sim_ret.
Qed.
Lemma sim_looping r r' k k' :
  sim ok_flow r r' ->
  (forall e, ok_env e = true -> sim ok_flow (k e) (fun m => k' m e)) ->
  sim ok_flow (looping r k) (fun m => looping (r' m) (k' m)).
Proof.
  intros H K. unfold looping.
  apply (sim_bind _ _ ok_flow ok_flow r r'
           (fun x => match snd x with Done _ => k (fst x) | Broke v => done (fst x) v | Returned _ => Ret x end)
           (fun m x => match snd x with Done _ => k' m (fst x) | Broke v => done (fst x) v | Returned _ => Ret x end) H).
  intros [e [v|v|v]] [X Y]; cbn [fst snd] in *; [now apply K|..]; now apply sim_ret.
Qed.
Lemma sim_pure e r : ok_env e = true -> (forall v, r = Ret v -> ok_value v = true) ->
  sim ok_flow (pure e r) (fun _ => pure e r).
Proof.
  intros E H. apply sim_same. intros x X. unfold pure, done in X. destruct r as [v| |]; [|discriminate..].
  injection X as <-. split; [exact E|]. now apply H.
Qed.
Lemma sim_done e v : ok_env e = true -> ok_value v = true -> sim ok_flow (done e v) (fun _ => done e v).
Proof. intros E V. apply sim_ret. now split. Qed.

(** * 4. What the pieces of the interpreter do with names *)

Lemma ok_lookup x e v : ok_env e = true -> lookup x e = Some v -> ok_value v = true.
Proof.
  unfold ok_env. induction e as [|[y w] e IH]; cbn; [discriminate|]. intros H. apply andb_prop in H as [H1 H2].
  destruct (String.eqb x y); [intros [= <-]; exact H1|now apply IH].
Qed.
Lemma ok_update x v e : ok_env e = true -> ok_value v = true -> ok_env (update x v e) = true.
Proof.
  unfold ok_env. intros H V. induction e as [|[y w] e IH]; cbn in *; [reflexivity|]. apply andb_prop in H as [H1 H2].
  destruct (String.eqb x y); cbn; [now rewrite V, H2|now rewrite H1, IH].
Qed.
Lemma ok_app a b : ok_env a = true -> ok_env b = true -> ok_env (a ++ b) = true.
Proof. unfold ok_env. rewrite forallb_app. now intros -> ->. Qed.
Lemma ok_drop {A} (k : list A) e : ok_env e = true -> ok_env (drop_len k e) = true.
Proof.
  revert e. induction k as [|a k IH]; intros e H; [exact H|]. destruct e as [|f e]; [exact H|].
  cbn in *. apply andb_prop in H as [_ H]. now apply IH.
Qed.
Lemma ok_restore old new : ok_env new = true -> ok_env (restore old new) = true.
Proof. apply ok_drop. Qed.
Lemma sim_scoped e r r' : sim ok_flow r r' -> sim ok_flow (scoped e r) (fun m => scoped e (r' m)).
Proof.
  intros H. unfold scoped.
  apply (sim_bind _ _ ok_flow ok_flow r r' (fun x => Ret (restore e (fst x), snd x)) (fun m x => Ret (restore e (fst x), snd x)) H).
  intros [f w] [X Y]. apply sim_ret. split; [now apply ok_restore|exact Y].
Qed.

Lemma ok_match_pat p : forall v b, match_pat p v = Some b -> ok_value v = true -> ok_env b = true.
Proof.
  assert (ALL : forall ps, Forall (fun p => forall v b, match_pat p v = Some b -> ok_value v = true -> ok_env b = true) ps ->
    forall vs b, (fix all (ps : list pat) (vs : list value) : option env :=
      match ps, vs with
      | p :: ps', v :: vs' =>
        match match_pat p v with
        | Some b => match all ps' vs' with Some b' => Some (b ++ b') | None => None end
        | None => None
        end
      | [], [] => Some []
      | _, _ => None
      end) ps vs = Some b -> forallb ok_value vs = true -> ok_env b = true).
  { induction 1 as [|q ps Q F IH]; intros [|w vs] b; try discriminate; [intros [= <-]; reflexivity|].
    cbn. intros H V. apply andb_prop in V as [V1 V2].
    destruct (match_pat q w) as [b1|] eqn:E; [|discriminate].
    lazymatch type of H with match ?x with _ => _ end = _ => destruct x as [b2|] eqn:E2; [|discriminate] end.
    injection H as <-. apply ok_app; [now apply (Q w)|now apply (IH vs)]. }
  revert p. fix IH 1. intros p.
  assert (F : forall ps, Forall (fun p => forall v b, match_pat p v = Some b -> ok_value v = true -> ok_env b = true) ps).
  { induction ps as [|q ps IHps]; constructor; [apply IH|exact IHps]. }
  destruct p; intros v b H V; cbn in H.
  - injection H as <-. reflexivity.
  - injection H as <-. cbn. now rewrite V.
  - destruct v; try discriminate. destruct (_ =? _)%N; [injection H as <-; reflexivity|discriminate].
  - destruct v; try discriminate. destruct (_ && _); [injection H as <-; reflexivity|discriminate].
  - destruct v; try discriminate. exact (ALL l (F l) _ _ H V).
  - destruct v; try discriminate. destruct (String.eqb _ _); [|discriminate].
    cbn in V. apply andb_prop in V as [_ V]. exact (ALL l (F l) _ _ H V).
  - specialize (F l). induction F as [|q ps Q F' IHps]; [discriminate|].
    destruct (match_pat q v) as [b1|] eqn:E; [injection H as <-; now apply (Q v)|]. now apply IHps.
Qed.
Lemma ok_bind_pats ps vs b : bind_pats ps vs = Some b -> forallb ok_value vs = true -> ok_env b = true.
Proof.
  revert vs b. induction ps as [|p ps IH]; intros [|v vs] b; cbn; try discriminate; [intros [= <-]; reflexivity|].
  destruct (match_pat p v) as [b1|] eqn:E; [|discriminate]. destruct (bind_pats ps vs) as [b2|] eqn:E2; [|discriminate].
  intros [= <-] V. apply andb_prop in V as [V1 V2]. apply ok_app; [exact (ok_match_pat _ _ _ E V1)|now apply (IH vs)].
Qed.
Lemma ok_bind_params xs vs b : bind_params xs vs = Some b -> forallb ok_value vs = true -> ok_env b = true.
Proof.
  revert vs b. induction xs as [|x xs IH]; intros [|v vs] b; cbn; try discriminate; [intros [= <-]; reflexivity|].
  destruct (bind_params xs vs) as [b2|] eqn:E2; [|discriminate].
  intros [= <-] V. apply andb_prop in V as [V1 V2]. cbn. rewrite V1. now apply (IH vs).
Qed.
Lemma ok_keep ms vs : forallb ok_value vs = true -> forallb ok_value (keep ms vs) = true.
Proof.
  revert vs. induction ms as [|[] ms IH]; intros vs V; [reflexivity|..]; destruct vs as [|v vs]; cbn in *; auto;
    apply andb_prop in V as [V1 V2]; [now rewrite V1, IH|now apply IH].
Qed.
Lemma ok_snds e : ok_env e = true -> forallb ok_value (map snd e) = true.
Proof. unfold ok_env. induction e as [|f e IH]; cbn; [reflexivity|]. intros H. apply andb_prop in H as [-> H]. now apply IH. Qed.
Lemma ok_write_back xs : forall ms vs e, ok_env e = true -> forallb ok_value vs = true -> ok_env (write_back e xs ms vs) = true.
Proof.
  induction xs as [|x xs IH]; intros [|[] ms] vs e E V; cbn; auto.
  destruct vs as [|v vs]; [exact E|]. cbn in V. apply andb_prop in V as [V1 V2].
  apply IH; [|exact V2]. destruct x; auto. destruct p as [|y [|z p]]; auto. now apply ok_update.
Qed.
Lemma ok_assign e l v e' : ok_env e = true -> ok_value v = true -> assign e l v = Some e' -> ok_env e' = true.
Proof.
  intros E V. destruct l; try discriminate; cbn.
  - destruct p as [|x [|y p]]; try discriminate. destruct (lookup x e); [|discriminate]. intros [= <-]. now apply ok_update.
  - destruct l; try discriminate. destruct p as [|x [|y p]]; try discriminate.
    destruct (lookup x e) as [w|] eqn:L; [|discriminate]. destruct w; try discriminate. intros [= <-].
    apply ok_update; [exact E|]. pose proof (ok_lookup _ _ _ E L) as W. cbn in *. apply andb_prop in W as [-> W].
    now apply (ok_update f v fs).
Qed.
Hypothesis ok_last : ok "" = true.
Lemma ok_last_path p : forallb ok p = true -> ok (last p "") = true.
Proof.
  induction p as [|x p IH]; [intros _; exact ok_last|]. intros H. cbn [forallb] in H. apply andb_prop in H as [H1 H2].
  destruct p as [|y p]; [exact H1|]. now apply IH.
Qed.
Lemma ok_self_path e p : ok_env e = true -> forallb ok p = true -> forallb ok (self_path e p) = true.
Proof.
  intros E H. unfold self_path. destruct p as [|x p]; [exact H|].
  repeat match goal with
  | |- context [match ?x with _ => _ end] => lazymatch x with lookup _ _ => fail | _ => destruct x; try exact H end
  end.
  destruct (lookup "Self" e) as [v|] eqn:L; [|exact H]. destruct v; try exact H.
  cbn in *. apply andb_prop in H as [_ H]. rewrite H. now rewrite (ok_lookup _ _ _ E L : ok t = true).
Qed.

(** The names that the library functions use. *)
Definition library : list string :=
  [""; "Option"; "Result"; "Ordering"; "Range"; "RangeFrom"; "RangeTo"; "RangeFull"].
Hypothesis ok_library : forallb ok library = true.
Lemma ok_lib x : In x library -> ok x = true.
Proof. apply (proj1 (forallb_forall ok library) ok_library). Qed.
Ltac lib := apply ok_lib; cbn; tauto.
Lemma ok_option : ok "Option" = true. Proof. lib. Qed.
Lemma ok_result_name : ok "Result" = true. Proof. lib. Qed.
Lemma ok_ordering c : ok_value (ordering c) = true.
Proof. destruct c; cbn; rewrite ok_lib; try reflexivity; cbn; tauto. Qed.

Hypothesis okt_literal : forall s, length s <= 60 -> okt s = true.
Hypothesis okt_shorter : forall s s', length s' <= length s -> okt s = true -> okt s' = true.
Variable MAX : nat.
Lemma ok_binary o a b v : binary MAX o a b = Ret v -> ok_value v = true.
Proof.
  unfold binary, fit. destruct o; try discriminate; destruct a; try discriminate; destruct b; try discriminate;
    try (intros [= <-]; reflexivity).
  - destruct (_ <=? _); [|discriminate]. now intros [= <-].
  - destruct (u8_of _); [|discriminate]. now intros [= <-].
  - destruct (_ <=? _); [|discriminate]. now intros [= <-].
  - destruct (_ <=? _)%N; [|discriminate]. destruct (u8_of _); [|discriminate]. now intros [= <-].
Qed.
(** [r] is stuck, a panic or a value that [Q] holds of. *)
Definition gives {A} (Q : A -> Prop) (r : outcome A) : Prop := match r with Ret v => Q v | _ => True end.
Lemma gives_ret {A} (Q : A -> Prop) r v : gives Q r -> r = Ret v -> Q v.
Proof. intros H ->. exact H. Qed.
(** Case analysis from the outside in. *)
Ltac cases :=
  repeat lazymatch goal with
  | |- gives _ (match split_at ?c ?s with _ => _ end) => let E := fresh "SP" in destruct (split_at c s) as [[? ?]|] eqn:E; try exact I
  | |- gives _ (match ?x with _ => _ end) => destruct x; try exact I
  | |- gives _ (bind ?x _) => destruct x; cbn [bind]; try exact I
  end.
Lemma ok_cast v t w : cast v t = Ret w -> ok_value w = true.
Proof. apply (gives_ret (fun w => ok_value w = true)). unfold cast. cases; reflexivity. Qed.
Lemma ok_field v f w : ok_value v = true -> field v f = Ret w -> ok_value w = true.
Proof.
  destruct v; try discriminate. cbn. intros V. apply andb_prop in V as [_ V].
  destruct (lookup f fs) eqn:L; [|discriminate]. intros [= <-]. exact (ok_lookup _ _ _ V L).
Qed.
Lemma ok_index v i w : ok_value v = true -> index_value v i = Ret w -> ok_value w = true.
Proof.
  intros V. apply (gives_ret (fun w => ok_value w = true)). unfold index_value.
  repeat lazymatch goal with
  | |- gives _ (match ?x with _ => _ end) => destruct x; try exact I
  | |- gives _ (bind ?x _) => let E := fresh "E" in destruct x eqn:E; cbn [bind]; try exact I
  end; try reflexivity; cbn in *.
  - apply (okt_shorter s); [|exact V]. now apply slice_length in E.
  - apply (okt_shorter s); [|exact V]. now apply slice_from_length in E.
  - apply (okt_shorter s); [|exact V]. unfold slice_to in E.
    destruct ((n <=? length s) && is_char_boundary s n); [|discriminate E]. injection E as <-.
    rewrite firstn_length. lia.
Qed.
Lemma ok_split c s x y : split_at c s = Some (x, y) -> length x <= length s /\ length y <= length s.
Proof.
  revert x y. induction s as [|b s IH]; intros x y; [discriminate|]. cbn. destruct (beq b c).
  - intros [= <- <-]. cbn. lia.
  - destruct (split_at c s) as [[x' y']|]; [|discriminate]. intros [= <- <-]. destruct (IH _ _ eq_refl). cbn. lia.
Qed.
Lemma ok_items v l : ok_value v = true -> items v = Some l -> forallb ok_value l = true.
Proof.
  intros V H. assert (N : forall l, forallb ok_value (map VNat l) = true) by (induction l0; cbn; auto).
  assert (B : forall l, forallb ok_value (map VByte l) = true) by (induction l0; cbn; auto).
  destruct v; try discriminate; cbn in H; [injection H as <-; auto|injection H as <-; exact V|].
  refine (gives_ret (fun l => forallb ok_value l = true) (match _ with Some l => Ret l | None => OutOfFuel end) l _
            (f_equal (fun o => match o with Some l => Ret l | None => OutOfFuel end) H)). clear H.
  repeat lazymatch goal with
  | |- gives _ (match (match ?x with _ => _ end) with Some _ => _ | None => _ end) => destruct x; try exact I
  end. apply N.
Qed.

Ltac conj := repeat match goal with H : _ && _ = true |- _ => apply andb_prop in H as [? H] end.
Ltac names V W := cbn in V, W; conj; split; cbn; repeat match goal with H : ?x = true |- context [?x] => rewrite H end;
  rewrite ?ok_option, ?ok_result_name; auto using ok_ordering.
Lemma ok_method0 v m args : ok_value v = true -> forallb ok_value args = true -> gives ok_result (method0 v m args).
Proof.
  intros V W. unfold method0. cases; try solve [split; [first [reflexivity|apply ok_ordering]|reflexivity]];
    try match goal with H : split_at _ ?s = Some (?x, ?y) |- _ =>
      apply ok_split in H as [SX SY]; assert (okt x = true) by exact (okt_shorter s x SX V);
      assert (okt y = true) by exact (okt_shorter s y SY V) end;
    names V W.
Qed.

(** * 5. One step of two machines *)

Variables P Q : program.
Variables nw nw' : caller -> string -> bytes -> outcome bool.
Variable evA : evaluator.
Variable callA : caller.
Variable evB : nat -> evaluator.
Variable callB : nat -> caller.
Hypothesis resolve_same : forall p, forallb ok p = true -> resolve P p = resolve Q p.
Hypothesis resolve_ok : forall p, forallb ok p = true -> ok_target (resolve Q p) = true.
Hypothesis invalid_ok : forall p t a, forallb ok p = true -> resolve Q p = TgNew t a -> ok ("Invalid" ++ t)%string = true.
Hypothesis method_same : forall v m, ok_value v = true -> ok m = true -> method_path P v m = method_path Q v m.
Hypothesis method_ok : forall v m p, ok m = true -> ok_value v = true -> method_path Q v m = Some p -> forallb ok p = true.
Hypothesis EV : forall e x, ok_env e = true -> ok_expr x = true -> sim ok_flow (evA e x) (fun m => evB m e x).
Hypothesis CALL : forall f args, ok_value f = true -> forallb ok_value args = true ->
  sim ok_result (callA f args) (fun m => callB m f args).
Hypothesis nw_sim : forall p t a s, forallb ok p = true -> resolve Q p = TgNew t a -> okt s = true ->
  sim (fun _ => True) (nw callA a s) (fun m => nw' (callB m) a s).

Lemma muts_same f : ok_value f = true -> muts P f = muts Q f.
Proof. intros H. destruct f; try reflexivity. cbn in *. now rewrite resolve_same. Qed.

Lemma sim_args es : forall e k k', ok_env e = true -> forallb ok_expr es = true ->
  (forall e vs, ok_env e = true -> forallb ok_value vs = true -> sim ok_flow (k e vs) (fun m => k' m e vs)) ->
  sim ok_flow (eval_args evA e es k) (fun m => eval_args (evB m) e es (k' m)).
Proof.
  induction es as [|x es IH]; intros e k k' E X K; cbn [eval_args]; [now apply K|].
  cbn in X. apply andb_prop in X as [X1 X2].
  apply (sim_andthen _ _ (fun e v => eval_args evA e es (fun e vs => k e (v :: vs)))
           (fun m e v => eval_args (evB m) e es (fun e vs => k' m e (v :: vs)))); [now apply EV|].
  intros e1 v E1 V. apply (IH e1 (fun e vs => k e (v :: vs)) (fun m e vs => k' m e (v :: vs))); auto.
  intros e2 vs E2 W. apply K; auto. cbn. now rewrite V.
Qed.
Lemma sim_fields fs : forall e k k', ok_env e = true -> forallb (fun f => ok_expr (snd f)) fs = true ->
  (forall e vs, ok_env e = true -> ok_env vs = true -> sim ok_flow (k e vs) (fun m => k' m e vs)) ->
  sim ok_flow (eval_fields evA e fs k) (fun m => eval_fields (evB m) e fs (k' m)).
Proof.
  induction fs as [|[f x] fs IH]; intros e k k' E X K; cbn [eval_fields]; [now apply K|].
  cbn in X. apply andb_prop in X as [X1 X2].
  apply (sim_andthen _ _ (fun e v => eval_fields evA e fs (fun e vs => k e ((f, v) :: vs)))
           (fun m e v => eval_fields (evB m) e fs (fun e vs => k' m e ((f, v) :: vs)))); [now apply EV|].
  intros e1 v E1 V. apply (IH e1 (fun e vs => k e ((f, v) :: vs)) (fun m e vs => k' m e ((f, v) :: vs))); auto.
  intros e2 vs E2 W. apply K; auto. cbn. now rewrite V.
Qed.
Lemma sim_arms e v arms : ok_env e = true -> ok_value v = true -> forallb (fun r => ok_expr (snd r)) arms = true ->
  sim ok_flow (eval_arms evA e v arms) (fun m => eval_arms (evB m) e v arms).
Proof.
  intros E V. induction arms as [|[p x] arms IH]; cbn; intros X; [apply sim_fuel|].
  apply andb_prop in X as [X1 X2]. destruct (match_pat p v) as [b|] eqn:M; [|now apply IH].
  apply sim_scoped. apply EV; [|exact X1]. apply ok_app; [exact (ok_match_pat _ _ _ M V)|exact E].
Qed.
Lemma sim_for p b l : forall e, ok_env e = true -> ok_expr b = true -> forallb ok_value l = true ->
  sim ok_flow (eval_for evA e p b l) (fun m => eval_for (evB m) e p b l).
Proof.
  induction l as [|v l IH]; intros e E X L; cbn [eval_for]; [now apply sim_done|].
  cbn in L. apply andb_prop in L as [L1 L2]. destruct (match_pat p v) as [d|] eqn:M; [|apply sim_fuel].
  apply (sim_looping _ _ (fun e => eval_for evA e p b l) (fun m e => eval_for (evB m) e p b l)).
  - apply (sim_scoped e _ (fun m => evB m (d ++ e) b)). apply EV; [|exact X].
    apply ok_app; [exact (ok_match_pat _ _ _ M L1)|exact E].
  - intros e1 E1. now apply IH.
Qed.
Lemma sim_stmts t l : forall e, ok_env e = true -> forallb ok_stmt l = true ->
  match t with Some t => ok_expr t | None => true end = true ->
  sim ok_flow (eval_stmts evA e l t) (fun m => eval_stmts (evB m) e l t).
Proof.
  induction l as [|[p x|x] l IH]; intros e E L T; cbn [eval_stmts].
  - destruct t as [t|]; [now apply EV|now apply sim_done].
  - cbn in L. apply andb_prop in L as [L1 L2].
    apply (sim_andthen _ _ (fun e v => match match_pat p v with Some b => eval_stmts evA (b ++ e) l t | None => OutOfFuel end)
             (fun m e v => match match_pat p v with Some b => eval_stmts (evB m) (b ++ e) l t | None => OutOfFuel end)); [now apply EV|].
    intros e1 v E1 V. destruct (match_pat p v) as [b|] eqn:M; [|apply sim_fuel].
    apply IH; auto. apply ok_app; [exact (ok_match_pat _ _ _ M V)|exact E1].
  - cbn in L. apply andb_prop in L as [L1 L2].
    apply (sim_andthen _ _ (fun e _ => eval_stmts evA e l t) (fun m e _ => eval_stmts (evB m) e l t)); [now apply EV|].
    intros e1 v E1 V. now apply IH.
Qed.
Lemma sim_path e p : ok_env e = true -> forallb ok p = true ->
  sim ok_flow (eval_path P evA e p) (fun m => eval_path Q (evB m) e p).
Proof.
  intros E X. unfold eval_path. destruct (match p with [x] => lookup x e | _ => None end) as [v|] eqn:L.
  { apply sim_done; [exact E|]. destruct p as [|x [|y p]]; try discriminate. exact (ok_lookup _ _ _ E L). }
  pose proof (ok_self_path e p E X) as SP. rewrite (resolve_same _ SP). pose proof (resolve_ok _ SP) as R.
  destruct (resolve Q (self_path e p)) as [t f|t c a|t|t a|t|t fs|t x|v| | |]; cbn in R; conj;
    try exact (sim_fuel _); try (apply sim_done; [exact E|]; assumption).
  - apply sim_done; [exact E|]. apply andb_prop in R as [R1 R2]. destruct (String.eqb t ""); cbn; rewrite ?R1, ?H; reflexivity.
  - destruct a; apply sim_done; auto. cbn. now rewrite R.
  - apply (sim_bind _ _ ok_flow ok_flow _ (fun m => evB m [("Self", VTy t)] x)
      (fun r => match snd r with Done v => done e v | _ => OutOfFuel end)
      (fun m r => match snd r with Done v => done e v | _ => OutOfFuel end)).
    + apply EV; [cbn; now rewrite H|exact R].
    + intros [e1 [v|v|v]] [F1 F2]; cbn [fst snd] in *; [now apply sim_done|apply sim_fuel..].
Qed.

Lemma sim_method v m vs : ok_value v = true -> forallb ok_value vs = true ->
  sim ok_result (method1 callA v m vs) (fun k => method1 (callB k) v m vs).
Proof.
  intros V W.
  assert (Z : sim ok_result (method0 v m vs) (fun _ => method0 v m vs)).
  { apply sim_same. intros x X. exact (gives_ret _ _ _ (ok_method0 v m vs V W) X). }
  assert (C : forall f x g, ok_value f = true -> ok_value x = true -> (forall y, ok_value y = true -> ok_value (g y) = true) ->
    sim ok_result (let! r := callA f [x] in Ret (g (fst r), [])) (fun k => let! r := callB k f [x] in Ret (g (fst r), []))).
  { intros f x g F X G. apply (sim_bind _ _ ok_result ok_result _ (fun k => callB k f [x]) (fun r => Ret (g (fst r), []))
      (fun k r => Ret (g (fst r), []))); [apply CALL; [exact F|cbn; now rewrite X]|].
    intros r [R1 R2]. apply sim_ret. split; [now apply G|reflexivity]. }
  unfold method1. revert Z. generalize (method0 v m vs). intros L Z. clear EV.
  repeat lazymatch goal with
  | |- sim _ (match ?x with _ => _ end) _ => destruct x; try exact Z
  end; cbn in V, W; conj; try (apply sim_ret; split; cbn; rewrite ?ok_option, ?ok_result_name; auto; fail).
  - apply (C v0 v some); auto. intros y Y. cbn. now rewrite ok_option, Y.
  - now apply (C v0 v (fun y => y)).
  - apply sim_ret. split; [|reflexivity]. cbn. now rewrite ok_result_name, H1.
  - apply (C v0 v errv); auto. intros y Y. cbn. now rewrite ok_result_name, Y.
Qed.

Ltac then_ := lazymatch goal with
  | |- sim _ (andthen _ ?k) (fun m => andthen _ (@?k' m)) => apply (sim_andthen _ _ k k')
  end.
Lemma sim_eval_step e x : ok_env e = true -> ok_expr x = true ->
  sim ok_flow (eval_step MAX P evA callA e x) (fun m => eval_step MAX Q (evB m) (callB m) e x).
Proof.
  intros E X. assert (X0 := X).
  assert (LIB : forall t, In t library -> ok t = true) by exact ok_lib.
  destruct x; cbn [ok_expr] in X; conj; cbn [eval_step].
  - apply sim_done; [exact E|]. destruct (String.eqb _ _); reflexivity.
  - now apply sim_done.
  - now apply sim_done.
  - now apply sim_done.
  - apply sim_done; [exact E|]. cbn. now apply okt_literal, Nat.leb_le.
  - apply sim_done; [exact E|]. cbn. now apply okt_literal, Nat.leb_le.
  - now apply sim_path.
  - then_; [now apply EV|]. intros e1 v E1 V. apply sim_pure; [exact E1|]. intros w. now apply ok_field.
  - then_; [now apply EV|]. intros e1 v E1 V. cbv beta. then_; [now apply EV|]. intros e2 w E2 W.
    apply sim_pure; [exact E2|]. intros z. now apply ok_index.
  - destruct a as [a|], b as [b|].
    + then_; [now apply EV|]. intros e1 v E1 V. cbv beta. then_; [now apply EV|]. intros e2 w E2 W.
      apply sim_done; [exact E2|]. cbn. rewrite V, W, LIB; [reflexivity|cbn; tauto].
    + then_; [now apply EV|]. intros e1 v E1 V. apply sim_done; [exact E1|]. cbn. rewrite V, LIB; [reflexivity|cbn; tauto].
    + then_; [now apply EV|]. intros e1 v E1 V. apply sim_done; [exact E1|]. cbn. rewrite V, LIB; [reflexivity|cbn; tauto].
    + apply sim_done; [exact E|]. cbn. rewrite LIB; [reflexivity|cbn; tauto].
  - then_; [now apply EV|]. intros e1 v E1 V. cbv beta.
    apply (sim_args args e1 (fun e vs => let! r := callA v vs in done (write_back e args (muts P v) (snd r)) (fst r))
      (fun m e vs => let! r := callB m v vs in done (write_back e args (muts Q v) (snd r)) (fst r))); auto.
    intros e2 vs E2 W. rewrite (muts_same v V).
    apply (sim_bind _ _ ok_result ok_flow _ (fun m => callB m v vs) (fun r => done (write_back e2 args (muts Q v) (snd r)) (fst r))
       (fun m r => done (write_back e2 args (muts Q v) (snd r)) (fst r))); [now apply CALL|].
    intros r [R1 R2]. apply sim_done; [now apply ok_write_back|exact R1].
  - then_; [now apply EV|]. intros e1 v E1 V. cbv beta.
    lazymatch goal with
    | |- sim _ (eval_args _ _ _ ?k) (fun m => eval_args _ _ _ (@?k' m)) => apply (sim_args args e1 k k'); auto
    end.
    intros e2 vs E2 W. rewrite (method_same v m V H0). destruct (method_path Q v m) as [p|] eqn:M.
    + pose proof (method_ok v m p H0 V M) as K. rewrite (muts_same (VPath p) K).
      apply (sim_bind _ _ ok_result ok_flow _ (fun k => callB k (VPath p) (v :: vs))
         (fun r => done (write_back e2 (x :: args) (muts Q (VPath p)) (snd r)) (fst r))
         (fun k r => done (write_back e2 (x :: args) (muts Q (VPath p)) (snd r)) (fst r))).
      { apply CALL; [exact K|]. cbn. now rewrite V, W. }
      intros r [R1 R2]. apply sim_done; [now apply ok_write_back|exact R1].
    + apply (sim_bind _ _ ok_result ok_flow _ (fun k => method1 (callB k) v m vs)
         (fun r => done (write_back e2 (x :: args) (method_muts m) (snd r)) (fst r))
         (fun k r => done (write_back e2 (x :: args) (method_muts m) (snd r)) (fst r))); [now apply sim_method|].
      intros r [R1 R2]. apply sim_done; [now apply ok_write_back|exact R1].
  - destruct o; [|now apply EV..]. then_; [now apply EV|]. intros e1 v E1 V. cbv beta.
    destruct v; try exact (sim_fuel _). now apply sim_done.
  - destruct o; (then_; [now apply EV|]; intros e1 v E1 V; cbv beta).
    1,2: destruct v as [|[]| | | | | | | | | | | | | | |]; try exact (sim_fuel _); first [now apply EV|now apply sim_done].
    all: then_; [now apply EV|]; intros e2 w E2 W; apply sim_pure; [exact E2|]; intros z; apply ok_binary.
  - then_; [now apply EV|]. intros e1 v E1 V. apply sim_pure; [exact E1|]. intros w. apply ok_cast.
  - destruct o as [o|].
    + then_; [now apply EV|]. intros e1 w E1 W. cbv beta. then_; [now apply EV|]. intros e2 v E2 V. cbv beta.
      destruct (binary MAX o v w) as [z| |] eqn:B; cbn [bind]; [|apply sim_same; discriminate..].
      destruct (assign e2 x1 z) as [e3|] eqn:A; [|exact (sim_fuel _)]. apply sim_done; [|reflexivity].
      exact (ok_assign _ _ _ _ E2 (ok_binary _ _ _ _ B) A).
    + then_; [now apply EV|]. intros e1 v E1 V. cbv beta.
      destruct (assign e1 x1 v) as [e3|] eqn:A; [|exact (sim_fuel _)]. apply sim_done; [|reflexivity].
      exact (ok_assign _ _ _ _ E1 V A).
  - then_; [now apply EV|]. intros e1 v E1 V. cbv beta. destruct v as [|[]| | | | | | | | | | | | | | |]; try exact (sim_fuel _).
    + now apply EV.
    + destruct e0 as [f|]; [now apply EV|now apply sim_done].
  - then_; [now apply EV|]. intros e1 v E1 V. now apply sim_arms.
  - then_; [now apply EV|]. intros e1 v E1 V. now apply sim_done.
  - then_; [now apply EV|]. intros e1 v E1 V. cbv beta. destruct v as [|[]| | | | | | | | | | | | | | |]; try exact (sim_fuel _).
    + apply (sim_looping _ (fun m => evB m e1 x2) (fun e => evA e (EWhile x1 x2)) (fun m e => evB m e (EWhile x1 x2))); [now apply EV|].
      intros e2 E2. now apply EV.
    + now apply sim_done.
  - apply (sim_looping _ (fun m => evB m e x) (fun e => evA e (ELoop x)) (fun m e => evB m e (ELoop x))); [now apply EV|].
    intros e2 E2. now apply EV.
  - then_; [now apply EV|]. intros e1 v E1 V. cbv beta. destruct (items v) as [l|] eqn:I; [|exact (sim_fuel _)].
    apply sim_for; auto. exact (ok_items _ _ V I).
  - destruct e0 as [a|]; [|apply sim_ret; now split]. then_; [now apply EV|]. intros e1 v E1 V. apply sim_ret. now split.
  - destruct e0 as [a|]; [|apply sim_ret; now split]. then_; [now apply EV|]. intros e1 v E1 V. apply sim_ret. now split.
  - apply (sim_scoped e _ (fun m => eval_stmts (evB m) e l tail)). now apply sim_stmts.
  - apply sim_done; [exact E|]. cbn. now rewrite X, (E : forallb _ e = true).
  - apply (sim_fields fs e (fun e l => done e (VStruct (last (self_path e p) "") l))
      (fun m e l => done e (VStruct (last (self_path e p) "") l))); auto.
    intros e1 vs E1 W. apply sim_done; [exact E1|]. cbn. rewrite ok_last_path by now apply ok_self_path. exact W.
  - destruct l as [|a l]; [now apply sim_done|].
    apply (sim_args (a :: l) e (fun e vs => done e (VTuple vs)) (fun m e vs => done e (VTuple vs))); auto.
    intros e1 vs E1 W. now apply sim_done.
  - apply (sim_args l e (fun e vs => done e (VList vs)) (fun m e vs => done e (VList vs))); auto.
    intros e1 vs E1 W. now apply sim_done.
Qed.

Lemma sim_run_fn t f args : ok t = true -> ok_fn f = true -> forallb ok_value args = true ->
  sim ok_result (run_fn evA t f args) (fun m => run_fn (evB m) t f args).
Proof.
  intros T F W. unfold run_fn. destruct (bind_params (param_names f) args) as [e|] eqn:B; [|exact (sim_fuel _)].
  apply andb_prop in F as [_ F].
  lazymatch goal with
  | |- sim _ (bind _ ?k) (fun m => bind (@?b m) (@?k' m)) => apply (sim_bind _ _ ok_flow ok_result _ b k k')
  end.
  - apply EV; [|exact F]. apply ok_update; [exact (ok_bind_params _ _ _ B W)|exact T].
  - intros [e1 [v|v|v]] [F1 F2]; cbn [fst snd] in *; [apply sim_ret..|exact (sim_fuel _)];
      (split; [exact F2|]; apply ok_keep; now apply ok_snds).
Qed.

Lemma sim_call_step f args : ok_value f = true -> forallb ok_value args = true ->
  sim ok_result (call_step_g nw P evA callA f args) (fun m => call_step_g nw' Q (evB m) (callB m) f args).
Proof.
  intros F W. unfold call_step_g, call_step. destruct f; try exact (sim_fuel _).
  - destruct (bind_pats ps args) as [d|] eqn:B; [|exact (sim_fuel _)]. cbn in F. apply andb_prop in F as [F1 F2].
    lazymatch goal with
    | |- sim _ (bind _ ?k) (fun m => bind (@?b m) (@?k' m)) => apply (sim_bind _ _ ok_flow ok_result _ b k k')
    end.
    + apply EV; [|exact F2]. apply ok_app; [exact (ok_bind_pats _ _ _ B W)|exact F1].
    + intros [e1 [v|v|v]] [G1 G2]; cbn [fst snd] in *; [apply sim_ret..|exact (sim_fuel _)]; (split; [exact G2|reflexivity]).
  - cbn in F. rewrite (resolve_same p F). pose proof (resolve_ok p F) as R.
    destruct (resolve Q p) as [t f|t c a|t|t a|t|t fs|t x|v| | |] eqn:T; try exact (sim_fuel _); cbn in R.
    + apply andb_prop in R as [R1 R2]. now apply sim_run_fn.
    + destruct a; [exact (sim_fuel _)|]. apply sim_ret. split; [|reflexivity]. cbn. now rewrite R, W.
    + destruct args as [|v [|w args]]; try exact (sim_fuel _). cbn in W. conj. apply sim_ret. split; [|reflexivity].
      cbn. now rewrite R, H.
    + destruct args as [|v [|w args]]; try exact (sim_fuel _).
      assert (I := invalid_ok p t a F T).
      assert (Z : forall s w, (w = VStr s \/ w = VBytes s) -> okt s = true -> sim ok_result
        (let! b := nw callA a s in Ret (if b then okv (tuple1 t (VStr s)) else errv (tuple1 ("Invalid" ++ t) w), []))
        (fun m => let! b := nw' (callB m) a s in Ret (if b then okv (tuple1 t (VStr s)) else errv (tuple1 ("Invalid" ++ t) w), []))).
      { intros s w O S. lazymatch goal with
        | |- sim _ (bind _ ?k) (fun m => bind (@?b m) (@?k' m)) => apply (sim_bind _ _ (fun _ => True) ok_result _ b k k')
        end; [now apply (nw_sim p t)|].
        intros b _. apply sim_ret. split; [|reflexivity]. destruct b; cbn [fst ok_value okv errv tuple1 forallb snd];
          rewrite ok_result_name, ?R, ?I; [now rewrite S|]. destruct O as [-> | ->]; cbn; now rewrite S. }
      cbn in W. apply andb_prop in W as [W _].
      destruct v; try exact (sim_fuel _); apply Z; auto.
    + destruct args as [|v [|w args]]; try exact (sim_fuel _); destruct v; try exact (sim_fuel _).
      cbn in W. apply andb_prop in W as [W _]. apply sim_ret. split; [|reflexivity]. cbn. now rewrite R, W.
    + destruct args as [|v args]; [|exact (sim_fuel _)]. apply sim_ret. split; [|reflexivity]. cbn. rewrite R. cbn.
      clear - okt_literal. assert (Z : okt [] = true) by (apply okt_literal; cbn; lia).
      induction fs as [|f fs IH]; [reflexivity|]. cbn. rewrite IH, andb_true_r.
      apply (gives_ret (fun v => ok_value v = true) (Ret (default_of (snd f))) _); [|reflexivity].
      unfold default_of. repeat lazymatch goal with
      | |- gives _ (Ret (match ?x with _ => _ end)) => destruct x; try reflexivity; try exact Z
      end.
    + destruct args as [|v [|w [|z args]]]; try exact (sim_fuel _); destruct v; try exact (sim_fuel _);
        destruct w; try exact (sim_fuel _). apply sim_ret. split; [|reflexivity]. cbn.
      destruct (decode_utf8_char s n) as [[c l]|]; cbn; now rewrite ok_result_name.
    + destruct args as [|v [|w args]]; try exact (sim_fuel _); destruct v; try exact (sim_fuel _).
      cbn in W. apply andb_prop in W as [W _]. apply sim_ret. now split.
  - destruct args as [|v [|w args]]; try exact (sim_fuel _). cbn in W. conj. apply sim_ret. split; [|reflexivity].
    cbn in *. now rewrite F, H.
Qed.
End Names.

(** * 6. Two machines *)

Section Machines.
(** The relation, at each fuel of the first machine. *)
Variable rel : nat -> forall A : Type, (A -> Prop) -> outcome A -> (nat -> outcome A) -> Prop.
Hypothesis rel_same : forall n A (G : A -> Prop) a, (forall x, a = Ret x -> G x) -> rel n A G a (fun _ => a).
Hypothesis rel_bind : forall n A B (G : A -> Prop) (G' : B -> Prop) a b k k',
  rel n A G a b -> (forall x, G x -> rel n B G' (k x) (fun m => k' m x)) ->
  rel n B G' (bind a k) (fun m => bind (b m) (k' m)).
Hypothesis rel_zero : forall A (G : A -> Prop) b, b 0 = OutOfFuel -> rel 0 A G OutOfFuel b.
Hypothesis rel_shift : forall n A (G : A -> Prop) a b b',
  (forall m, b (S m) = b' m) -> rel n A G a b' -> rel (S n) A G a b.
Variable ok : string -> bool.
Variable okt : bytes -> bool.
Hypothesis ok_last : ok "" = true.
Hypothesis ok_library : forallb ok library = true.
Hypothesis okt_literal : forall s, length s <= 60 -> okt s = true.
Hypothesis okt_shorter : forall s s', length s' <= length s -> okt s = true -> okt s' = true.
Variable MAX : nat.
Variables P Q : program.
Variables nw nw' : caller -> string -> bytes -> outcome bool.
Variable evA : nat -> evaluator.
Variable callA : nat -> caller.
Variable evB : nat -> evaluator.
Variable callB : nat -> caller.
Hypothesis evA0 : forall e x, evA 0 e x = OutOfFuel.
Hypothesis callA0 : forall f args, callA 0 f args = OutOfFuel.
Hypothesis evA_S : forall n e x, evA (S n) e x = eval_step MAX P (evA n) (callA n) e x.
Hypothesis callA_S : forall n f args, callA (S n) f args = call_step_g nw P (evA n) (callA n) f args.
Hypothesis evB0 : forall e x, evB 0 e x = OutOfFuel.
Hypothesis callB0 : forall f args, callB 0 f args = OutOfFuel.
Hypothesis evB_S : forall n e x, evB (S n) e x = eval_step MAX Q (evB n) (callB n) e x.
Hypothesis callB_S : forall n f args, callB (S n) f args = call_step_g nw' Q (evB n) (callB n) f args.
Hypothesis resolve_same : forall p, forallb ok p = true -> resolve P p = resolve Q p.
Hypothesis resolve_ok : forall p, forallb ok p = true -> ok_target ok okt (resolve Q p) = true.
Hypothesis invalid_ok : forall p t a, forallb ok p = true -> resolve Q p = TgNew t a -> ok ("Invalid" ++ t)%string = true.
Hypothesis method_same : forall v m, ok_value ok okt v = true -> ok m = true -> method_path P v m = method_path Q v m.
Hypothesis method_ok : forall v m p,
  ok m = true -> ok_value ok okt v = true -> method_path Q v m = Some p -> forallb ok p = true.
Hypothesis nw_sim : forall n p t a s, forallb ok p = true -> resolve Q p = TgNew t a -> okt s = true ->
  (forall f args, ok_value ok okt f = true -> forallb (ok_value ok okt) args = true ->
     rel n _ (ok_result ok okt) (callA n f args) (fun m => callB m f args)) ->
  rel n _ (fun _ => True) (nw (callA n) a s) (fun m => nw' (callB m) a s).

Theorem machines n :
  (forall e x, ok_env ok okt e = true -> ok_expr ok x = true ->
     rel n _ (ok_flow ok okt) (evA n e x) (fun m => evB m e x)) /\
  (forall f args, ok_value ok okt f = true -> forallb (ok_value ok okt) args = true ->
     rel n _ (ok_result ok okt) (callA n f args) (fun m => callB m f args)).
Proof.
  induction n as [|n [EV CALL]]; split.
  - intros. rewrite evA0. apply rel_zero. apply evB0.
  - intros. rewrite callA0. apply rel_zero. apply callB0.
  - intros e x E X. rewrite evA_S. apply (rel_shift n _ _ _ _ _ (fun m => evB_S m e x)).
    eapply (sim_eval_step ok okt (rel n)); eauto.
  - intros f args F W. rewrite callA_S. apply (rel_shift n _ _ _ _ _ (fun m => callB_S m f args)).
    eapply (sim_call_step ok okt (rel n)); eauto.
Qed.
End Machines.

(** * 7. The result with enough fuel *)

(** If [a] is a result, so is [b] with enough fuel. *)
Definition sim {A} (good : A -> Prop) (a : outcome A) (b : nat -> outcome A) : Prop :=
  a <> OutOfFuel -> (exists m, forall n, m <= n -> b n = a) /\ forall x, a = Ret x -> good x.
Lemma sim_same {A} (G : A -> Prop) a : (forall x, a = Ret x -> G x) -> sim G a (fun _ => a).
Proof. intros H _. split; [exists 0; reflexivity|exact H]. Qed.
Lemma sim_bind {A B} (G : A -> Prop) (G' : B -> Prop) a b k k' :
  sim G a b -> (forall x, G x -> sim G' (k x) (fun m => k' m x)) -> sim G' (bind a k) (fun m => bind (b m) (k' m)).
Proof.
  intros H K. destruct a as [x| |]; cbn [bind].
  - destruct H as ((m & M) & X); [discriminate|]. specialize (K x (X x eq_refl)). intros N. destruct (K N) as ((m' & M') & X').
    split; [|exact X']. exists (m + m'). intros n L. rewrite M by lia. apply M'. lia.
  - intros _. destruct H as ((m & M) & X); [discriminate|]. split; [|discriminate]. exists m. intros n L. now rewrite M.
  - intros H'. now destruct H'.
Qed.
Lemma sim_zero {A} (G : A -> Prop) b : b 0 = OutOfFuel -> sim G OutOfFuel b.
Proof. intros _ H. now destruct H. Qed.
Lemma sim_shift {A} (G : A -> Prop) a b b' : (forall m, b (S m) = b' m) -> sim G a b' -> sim G a b.
Proof.
  intros E H N. destruct (H N) as ((m & M) & X). split; [|exact X]. exists (S m). intros [|n] L; [lia|].
  rewrite E. apply M. lia.
Qed.
Definition sim_machines := machines (fun _ => @sim) (fun _ => @sim_same) (fun _ => @sim_bind) (@sim_zero) (fun _ => @sim_shift).

(** * 8. The same result, with the same fuel *)

Definition same (n : nat) {A} (good : A -> Prop) (a : outcome A) (b : nat -> outcome A) : Prop :=
  b n = a /\ forall x, a = Ret x -> good x.
Lemma same_same n {A} (G : A -> Prop) a : (forall x, a = Ret x -> G x) -> same n G a (fun _ => a).
Proof. intros H. now split. Qed.
Lemma same_bind n {A B} (G : A -> Prop) (G' : B -> Prop) a b k k' :
  same n G a b -> (forall x, G x -> same n G' (k x) (fun m => k' m x)) -> same n G' (bind a k) (fun m => bind (b m) (k' m)).
Proof.
  intros [E H] K. unfold same. rewrite E. destruct a as [x| |]; cbn [bind]; [exact (K x (H x eq_refl))|now split..].
Qed.
Lemma same_zero {A} (G : A -> Prop) b : b 0 = OutOfFuel -> same 0 G OutOfFuel b.
Proof. intros H. now split. Qed.
Lemma same_shift n {A} (G : A -> Prop) a b b' : (forall m, b (S m) = b' m) -> same n G a b' -> same (S n) G a b.
Proof. intros E [H K]. split; [|exact K]. now rewrite E. Qed.
Definition same_machines := machines (@same) (@same_same) (@same_bind) (@same_zero) (@same_shift).
