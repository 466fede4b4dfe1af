(** The automata of grammar.rs as the source text gives them, and the constructors that run them. *)
From Verif Require Import Base Validate Newtypes Spec Observe Accept RustSyntax RustEval RustProgram RustRefine.
Open Scope string_scope.
Open Scope nat_scope.
Open Scope list_scope.

(** * 1. The transition table of a [push] function *)

Definition row_t := list (list (N * N) * N).
Definition table_t := list (N * row_t).

Fixpoint ranges (l : list pat) : option (list (N * N)) :=
  match l with
  | [] => Some []
  | PChar a b :: l' => match ranges l' with Some r => Some ((a, b) :: r) | None => None end
  | _ => None
  end.
Definition ranges_of (p : pat) : option (list (N * N)) := match p with POr l => ranges l | _ => ranges [p] end.
Definition is_return_false (x : expr) : bool := match x with EReturn (Some (EBool false)) => true | _ => false end.
(** The arms of [match token { .. }]. *)
Fixpoint row (arms : list (pat * expr)) : option row_t :=
  match arms with
  | (PWild, x) :: l => if is_return_false x then Some [] else None
  | (p, EInt n suffix) :: l =>
    if String.eqb suffix "u32" then
      match ranges_of p, row l with Some r, Some t => Some ((r, n) :: t) | _, _ => None end
    else None
  | _ => None
  end.
(** The arms of [match self.state { .. }]. *)
Fixpoint table (arms : list (pat * expr)) : option table_t :=
  match arms with
  | (PWild, x) :: l => if is_return_false x then Some [] else None
  | (PInt n, EMatch (EPath [x]) rows) :: l =>
    if String.eqb x "token" then
      match row rows, table l with Some r, Some t => Some ((n, r) :: t) | _, _ => None end
    else None
  | _ => None
  end.
(** The body of [push]. *)
Definition push_body (arms : list (pat * expr)) : expr :=
  EBlock [SExpr (EAssign None (EField (EPath ["self"]) "state") (EMatch (EField (EPath ["self"]) "state") arms))]
         (Some (EBool true)).
Definition push_arms (b : expr) : list (pat * expr) :=
  match b with EBlock [SExpr (EAssign None _ (EMatch _ arms))] _ => arms | _ => [] end.

Definition in_ranges (c : N) (r : list (N * N)) : bool := existsb (fun x => (fst x <=? c)%N && (c <=? snd x)%N) r.
Fixpoint step_row (r : row_t) (c : N) : option N :=
  match r with
  | (x, n) :: r' => if in_ranges c x then Some n else step_row r' c
  | [] => None
  end.
Fixpoint step_table (t : table_t) (q c : N) : option N :=
  match t with
  | (n, r) :: t' => if (q =? n)%N then step_row r c else step_table t' q c
  | [] => None
  end.

Lemma minus_len_same {A B} (a : list A) (b : list B) : length a = length b -> minus_len a b = [].
Proof. revert b; induction a as [|x a IH]; intros [|y b] H; cbn in *; try discriminate; auto. Qed.
Lemma restore_same e : restore e e = e.
Proof. unfold restore. rewrite minus_len_same by reflexivity. now destruct e. Qed.

Lemma ranges_match c : forall l r, ranges l = Some r ->
  match_pat (POr l) (VChar c) = if in_ranges c r then Some [] else None.
Proof.
  induction l as [|p l IH]; intros r; cbn [ranges]; [intros [= <-]; reflexivity|].
  destruct p; try discriminate. destruct (ranges l) as [r'|]; try discriminate. intros [= <-].
  specialize (IH r' eq_refl). cbn [match_pat] in *. cbn [in_ranges existsb fst snd].
  destruct ((lo <=? c)%N && (c <=? hi)%N); [reflexivity|]. rewrite IH. reflexivity.
Qed.
Lemma ranges_of_match c p r : ranges_of p = Some r ->
  match_pat p (VChar c) = if in_ranges c r then Some [] else None.
Proof.
  destruct p; cbn [ranges_of]; try (cbn [ranges]; discriminate); intro H.
  - apply (ranges_match c) in H. cbn [match_pat] in *.
    destruct ((lo <=? c)%N && (c <=? hi)%N); auto.
  - now apply ranges_match.
Qed.

Lemma return_false {M} m e x : is_return_false x = true -> eval M crate (5 + m) e x = Ret (e, Returned (VBool false)).
Proof.
  destruct x; try discriminate. destruct e0 as [[]|]; try discriminate. destruct b; try discriminate. intros _.
  run. reflexivity.
Qed.

Lemma row_ok {M} m c e : forall arms r, row arms = Some r ->
  eval_arms (eval M crate (5 + m)) e (VChar c) arms =
  match step_row r c with
  | Some n => Ret (e, Done (VU32 n))
  | None => Ret (e, Returned (VBool false))
  end.
Proof.
  induction arms as [|[p x] arms IH]; intros r; [discriminate|].
  assert (p <> PWild -> (match x with
    | EInt n suffix => if String.eqb suffix "u32" then
      match ranges_of p, row arms with Some r, Some t => Some ((r, n) :: t) | _, _ => None end else None
    | _ => None end) = Some r ->
    eval_arms (eval M crate (5 + m)) e (VChar c) ((p, x) :: arms) =
    match step_row r c with Some n => Ret (e, Done (VU32 n)) | None => Ret (e, Returned (VBool false)) end) as G.
  { intros _. destruct x; try discriminate. destruct (String.eqb suffix "u32") eqn:E; try discriminate.
    destruct (ranges_of p) as [rs|] eqn:Er; try discriminate.
    destruct (row arms) as [t|]; try discriminate. intros [= <-].
    cbn [eval_arms step_row]. rewrite (ranges_of_match c p rs Er).
    destruct (in_ranges c rs); [|now apply IH].
    rewrite eval_eq. cbn [eval_step app]. rewrite E. unfold done, scoped. cbn [bind fst snd]. now rewrite restore_same. }
  destruct p; try (intro H; apply G; [discriminate|]; destruct x; exact H).
  cbn [row]. destruct (is_return_false x) eqn:E; [|discriminate]. intros [= <-].
  cbn [eval_arms match_pat app step_row]. rewrite return_false by auto. unfold scoped. cbn [bind fst snd].
  now rewrite restore_same.
Qed.

Lemma table_ok {M} m q c e : lookup "token" e = Some (VChar c) -> forall arms t, table arms = Some t ->
  eval_arms (eval M crate (7 + m)) e (VU32 q) arms =
  match step_table t q c with
  | Some n => Ret (e, Done (VU32 n))
  | None => Ret (e, Returned (VBool false))
  end.
Proof.
  intros Hc. induction arms as [|[p x] arms IH]; intros t; [discriminate|].
  destruct p; try discriminate.
  - cbn [table]. destruct (is_return_false x) eqn:E; [|discriminate]. intros [= <-].
    cbn [eval_arms match_pat app step_table]. rewrite (return_false (2 + m)) by auto. unfold scoped. cbn [bind fst snd].
    now rewrite restore_same.
  - cbn [table]. destruct x; try discriminate. destruct x; try discriminate. destruct p as [|y [|]]; try discriminate.
    destruct (String.eqb y "token") eqn:E; [|discriminate]. apply String.eqb_eq in E. subst y.
    destruct (row arms0) as [r|] eqn:Er; try discriminate. destruct (table arms) as [t'|]; try discriminate.
    intros [= <-]. cbn [eval_arms match_pat step_table].
    destruct (q =? n)%N; [|now apply IH].
    rewrite eval_eq. cbn [eval_step app]. rewrite eval_eq. cbn [eval_step].
    unfold eval_path. rewrite Hc. unfold done, andthen. cbn [bind fst snd].
    change (6 + m) with (5 + (1 + m)). rewrite (row_ok (1 + m) c e _ _ Er).
    unfold scoped. destruct (step_row r c); cbn [bind fst snd]; now rewrite restore_same.
Qed.

(** A state of the automaton [x]. *)
Definition auto (x : string) (q : N) : value := VStruct x [("state", VU32 q)].

Lemma push_body_ok {M} m x q c arms t : table arms = Some t ->
  eval M crate (15 + m) [("self", auto x q); ("token", VChar c); ("Self", VTy x)] (push_body arms) =
  match step_table t q c with
  | Some n => Ret ([("self", auto x n); ("token", VChar c); ("Self", VTy x)], Done (VBool true))
  | None => Ret ([("self", auto x q); ("token", VChar c); ("Self", VTy x)], Returned (VBool false))
  end.
Proof.
  intros H. unfold push_body, auto. run.
  match goal with |- context [eval_arms (eval M crate (?k + m)) ?e] =>
    change (eval M crate (k + m)) with (eval M crate (7 + (5 + m))); rewrite (table_ok (5 + m) q c e eq_refl arms t H)
  end.
  destruct (step_table t q c); run; reflexivity.
Qed.

(** * 2. The table agrees with the model *)

Definition upto (n : nat) : list N := map N.of_nat (seq 0 n).
Lemma upto_spec n k : (k < N.of_nat n)%N -> In k (upto n).
Proof. intro H. apply in_map_iff. exists (N.to_nat k). rewrite N2Nat.id, in_seq. split; [reflexivity|lia]. Qed.

Definition same (x y : option N) : bool :=
  match x, y with Some a, Some b => (a =? b)%N | None, None => true | _, _ => false end.
Lemma same_eq x y : same x y = true -> x = y.
Proof. destruct x, y; cbn; try discriminate; auto. intro H. apply N.eqb_eq in H. now subst. Qed.

(** All characters of the table are ASCII, all its states are below [k], and it agrees with [A]. *)
Definition agrees (A : automaton) (t : table_t) (k : nat) : bool :=
  forallb (fun x => forallb (fun y => (snd y <? N.of_nat k)%N && forallb (fun z => (snd z <? 128)%N) (fst y)) (snd x)) t &&
  forallb (fun q => forallb (fun c => same (step_table t q c) (push A q c)) (upto 128)) (upto k).

Lemma step_row_high r c k : forallb (fun y => (snd y <? N.of_nat k)%N && forallb (fun z => (snd z <? 128)%N) (fst y)) r = true ->
  (128 <= c)%N -> step_row r c = None.
Proof.
  intros H Hc. induction r as [|[x n] r IH]; [reflexivity|]. cbn [forallb fst snd] in H.
  apply andb_true_iff in H as [H H']. apply andb_true_iff in H as [_ H]. cbn [step_row].
  replace (in_ranges c x) with false; [now apply IH|]. symmetry. clear -H Hc.
  induction x as [|[a b] x IH]; [reflexivity|]. cbn [forallb in_ranges existsb fst snd] in *.
  apply andb_true_iff in H as [H H']. apply N.ltb_lt in H. rewrite (proj2 (N.leb_gt c b)) by lia.
  rewrite andb_false_r. now apply IH.
Qed.
Lemma step_row_bound r c k : forallb (fun y => (snd y <? N.of_nat k)%N && forallb (fun z => (snd z <? 128)%N) (fst y)) r = true ->
  forall n, step_row r c = Some n -> (n < N.of_nat k)%N.
Proof.
  intros H. induction r as [|[x n] r IH]; [discriminate|]. cbn [forallb fst snd] in H.
  apply andb_true_iff in H as [H H']. apply andb_true_iff in H as [H _]. apply N.ltb_lt in H. cbn [step_row].
  destruct (in_ranges c x); [intros ? [= <-]; auto|now apply IH].
Qed.
Lemma agrees_step A t k q c : high_rejects A -> agrees A t k = true -> (q < N.of_nat k)%N ->
  step_table t q c = push A q c /\ forall n, push A q c = Some n -> (n < N.of_nat k)%N.
Proof.
  intros HA H Hq. apply andb_true_iff in H as [H1 H2].
  assert (step_table t q c = push A q c) as E.
  { destruct (N.ltb_spec c 128) as [Hc|Hc].
    - rewrite forallb_forall in H2. specialize (H2 q (upto_spec k q Hq)). rewrite forallb_forall in H2.
      apply same_eq, H2, upto_spec. lia.
    - rewrite HA by auto. clear H2. induction t as [|[n r] t IH]; [reflexivity|].
      cbn [forallb fst snd] in H1. apply andb_true_iff in H1 as [H1 H2]. cbn [step_table].
      destruct (q =? n)%N; [now apply (step_row_high r c k)|now apply IH]. }
  split; [exact E|]. rewrite <- E. clear -H1. induction t as [|[n r] t IH]; [discriminate|].
  cbn [forallb fst snd] in H1. apply andb_true_iff in H1 as [H1 H2]. cbn [step_table].
  destruct (q =? n)%N; [now apply (step_row_bound r c k)|now apply IH].
Qed.

(** The states of [matches!(self.state, ..)]. *)
Fixpoint ints (l : list pat) : option (list N) :=
  match l with
  | [] => Some []
  | PInt n :: l' => match ints l' with Some r => Some (n :: r) | None => None end
  | _ => None
  end.
Definition ints_of (p : pat) : option (list N) := match p with POr l => ints l | _ => ints [p] end.
Definition accepting_body (p : pat) : expr := EBlock [] (Some (EMatches (EField (EPath ["self"]) "state") p)).
Definition accepting_pat (b : expr) : pat := match b with EBlock [] (Some (EMatches _ p)) => p | _ => PWild end.
Definition agrees_accepting (A : automaton) (l : list N) (k : nat) : bool :=
  forallb (fun q => Bool.eqb (existsb (N.eqb q) l) (is_accepting A q)) (upto k).

Lemma ints_match q : forall l r, ints l = Some r ->
  match_pat (POr l) (VU32 q) = if existsb (N.eqb q) r then Some [] else None.
Proof.
  induction l as [|p l IH]; intros r; cbn [ints]; [intros [= <-]; reflexivity|].
  destruct p; try discriminate. destruct (ints l) as [r'|]; try discriminate. intros [= <-].
  specialize (IH r' eq_refl). cbn [match_pat] in *. cbn [existsb].
  destruct (q =? n)%N; [reflexivity|]. rewrite IH. reflexivity.
Qed.
Lemma ints_of_match q p r : ints_of p = Some r ->
  match_pat p (VU32 q) = if existsb (N.eqb q) r then Some [] else None.
Proof.
  destruct p; cbn [ints_of]; try (cbn [ints]; discriminate); intro H.
  - apply (ints_match q) in H. cbn [match_pat] in *. destruct (q =? n)%N; auto.
  - now apply ints_match.
Qed.

(** * 3. Running the automata *)

Lemma push_call {M} m x q c f arms t :
  resolve crate [x; "push"] = TgFn x f ->
  f = Fn "push" ByMut [("token", TyPath ["char"] [])] (Some (TyPath ["bool"] [])) (push_body arms) ->
  table arms = Some t ->
  call M crate (16 + m) (VPath [x; "push"]) [auto x q; VChar c] =
  Ret match step_table t q c with
      | Some n => (VBool true, [auto x n])
      | None => (VBool false, [auto x q])
      end.
Proof.
  intros H -> Ht. rewrite call_eq. cbn [call_step]. rewrite H. unfold run_fn.
  cbn [param_names fn_self fn_params map fst app bind_params fn_body update String.eqb Ascii.eqb Bool.eqb].
  rewrite (push_body_ok m x q c arms t Ht). now destruct (step_table t q c).
Qed.

Lemma accepting_call {M} m x q f p l :
  resolve crate [x; "is_accepting"] = TgFn x f ->
  f = Fn "is_accepting" ByRef [] (Some (TyPath ["bool"] [])) (accepting_body p) ->
  ints_of p = Some l ->
  call M crate (16 + m) (VPath [x; "is_accepting"]) [auto x q] = Ret (VBool (existsb (N.eqb q) l), []).
Proof.
  intros H -> Hl. rewrite call_eq. cbn [call_step]. rewrite H. unfold run_fn.
  cbn [param_names fn_self fn_params map fst app bind_params fn_body update String.eqb Ascii.eqb Bool.eqb].
  unfold accepting_body, auto. rewrite eval_eq. cbn [eval_step eval_stmts]. rewrite eval_eq. cbn [eval_step].
  rewrite eval_eq. cbn [eval_step]. rewrite eval_eq. tidy.
  rewrite (ints_of_match q p l Hl). destruct (existsb (N.eqb q) l); reflexivity.
Qed.

(** What [push] and [is_accepting] of the type [x] do in the first [k] states. *)
Definition automaton_src (x : string) (A : automaton) (k : nat) : Prop :=
  (0 < N.of_nat k)%N /\
  (forall q c n, (q < N.of_nat k)%N -> push A q c = Some n -> (n < N.of_nat k)%N) /\
  (forall M n q c, 16 <= n -> (q < N.of_nat k)%N ->
    call M crate n (VPath [x; "push"]) [auto x q; VChar c] =
    Ret match push A q c with Some q' => (VBool true, [auto x q']) | None => (VBool false, [auto x q]) end) /\
  (forall M n q, 16 <= n -> (q < N.of_nat k)%N ->
    call M crate n (VPath [x; "is_accepting"]) [auto x q] = Ret (VBool (is_accepting A q), [])).

Definition body_of (x m : string) : expr :=
  match resolve crate [x; m] with TgFn _ f => fn_body f | _ => EBool false end.
Definition table_of (x : string) : option table_t := table (push_arms (body_of x "push")).
Definition accepting_of (x : string) : option (list N) := ints_of (accepting_pat (body_of x "is_accepting")).
Definition agrees_with (x : string) (A : automaton) (k : nat) : bool :=
  (0 <? N.of_nat k)%N &&
  match table_of x, accepting_of x with
  | Some t, Some l => agrees A t k && agrees_accepting A l k
  | _, _ => false
  end.

Lemma automaton_src_intro x A k :
  high_rejects A ->
  resolve crate [x; "push"] = TgFn x (Fn "push" ByMut [("token", TyPath ["char"] [])] (Some (TyPath ["bool"] []))
    (push_body (push_arms (body_of x "push")))) ->
  resolve crate [x; "is_accepting"] = TgFn x (Fn "is_accepting" ByRef [] (Some (TyPath ["bool"] []))
    (accepting_body (accepting_pat (body_of x "is_accepting")))) ->
  agrees_with x A k = true ->
  automaton_src x A k.
Proof.
  intros HA Hp Ha H. unfold agrees_with in H.
  apply andb_true_iff in H as [Hk H]. apply N.ltb_lt in Hk.
  destruct (table_of x) as [t|] eqn:Et; [|discriminate]. destruct (accepting_of x) as [l|] eqn:El; [|discriminate].
  apply andb_true_iff in H as [H1 H2]. split; [exact Hk|]. split; [|split].
  - intros q c n Hq. apply (agrees_step A t k q c HA H1 Hq).
  - intros M n q c Hn Hq. fuel n 16. rewrite (push_call m x q c _ _ t Hp eq_refl Et).
    now rewrite (proj1 (agrees_step A t k q c HA H1 Hq)).
  - intros M n q Hn Hq. fuel n 16. rewrite (accepting_call m x q _ _ l Ha eq_refl El).
    unfold agrees_accepting in H2. rewrite forallb_forall in H2. specialize (H2 q (upto_spec k q Hq)).
    apply eqb_prop in H2. now rewrite H2.
Qed.

Ltac automaton h := apply automaton_src_intro; [exact h|vm_compute; reflexivity..].
Lemma LanguageTag_src : automaton_src "grammar::LanguageTag" LanguageTag 300. Proof. automaton high_LanguageTag. Qed.
Lemma Privateuse_src : automaton_src "grammar::Privateuse" Privateuse 100. Proof. automaton high_Privateuse. Qed.
Lemma PrivateuseSubtag_src : automaton_src "grammar::PrivateuseSubtag" PrivateuseSubtag 100.
Proof. automaton high_PrivateuseSubtag. Qed.
Lemma Langtag_src : automaton_src "grammar::Langtag" Langtag 100. Proof. automaton high_Langtag. Qed.
Lemma Language_src : automaton_src "grammar::Language" Language 100. Proof. automaton high_Language. Qed.
Lemma Primary_src : automaton_src "grammar::Primary" Primary 100. Proof. automaton high_Primary. Qed.
Lemma Extlang_src : automaton_src "grammar::Extlang" Extlang 100. Proof. automaton high_Extlang. Qed.
Lemma ExtlangTag_src : automaton_src "grammar::ExtlangTag" ExtlangTag 100. Proof. automaton high_ExtlangTag. Qed.
Lemma Script_src : automaton_src "grammar::Script" Script 100. Proof. automaton high_Script. Qed.
Lemma Region_src : automaton_src "grammar::Region" Region 100. Proof. automaton high_Region. Qed.
Lemma Variant_src : automaton_src "grammar::Variant" Variant 100. Proof. automaton high_Variant. Qed.
Lemma Variants_src : automaton_src "grammar::Variants" Variants 100. Proof. automaton high_Variants. Qed.
Lemma Extension_src : automaton_src "grammar::Extension" Extension 100. Proof. automaton high_Extension. Qed.
Lemma ExtensionSubtag_src : automaton_src "grammar::ExtensionSubtag" ExtensionSubtag 100.
Proof. automaton high_ExtensionSubtag. Qed.
Lemma Extensions_src : automaton_src "grammar::Extensions" Extensions 100. Proof. automaton high_Extensions. Qed.
