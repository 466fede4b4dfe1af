(** The crate without grammar.rs: lib.rs takes the automata from the macro [grammar!], which writes them from
    grammar.abnf when the crate is compiled.  What they answer is a parameter here. *)
From Verif Require Import Base GrammarRs Validate Newtypes Spec Observe Accept Terminate.
From Verif Require Import RustText RustSyntax RustEval RustProgram RustRefine RustGrammar RustValidate RustSays RustOracle.
Open Scope string_scope.
Open Scope nat_scope.
Open Scope list_scope.

(** * 1. The program *)

(** The files that are compiled; the module [grammar] is generated (/repo/src/lib.rs:46-66). *)
Definition compiled_files : list (string * bytes) :=
  [ ("", lib_rs); ("", utils_rs); ("", grandfathered_rs); ("", private_use_rs);
    ("", normal_mod_rs); ("", normal_extension_rs); ("", normal_variant_rs);
    ("", normal_private_use_rs); ("", normal_script_rs); ("", normal_region_rs);
    ("", normal_language_mod_rs); ("", normal_language_extlang_rs); ("", normal_language_primary_rs) ].
Definition compiled : program :=
  Eval vm_compute in
    match load compiled_files (Program [] [] [] [] []) with Some P => P | None => Program [] [] [] [] [] end.
Lemma compiled_is_the_source : load compiled_files (Program [] [] [] [] []) = Some compiled.
Proof. vm_cast_no_check (eq_refl (Some compiled)). Qed.

(** The strings in [export(..)], in the attribute of the module [grammar] (/repo/src/lib.rs:46-65). *)
Fixpoint strings (ts : list token) : list string :=
  match ts with
  | TStr s :: ts' => str s :: strings ts'
  | TP "," :: ts' => strings ts'
  | _ => []
  end.
Fixpoint exported (ts : list token) : list string :=
  match ts with
  | TId "grammar" :: TP "(" :: TId "file" :: TP "=" :: TStr f :: TP "," :: TId "export" :: TP "(" :: ts' =>
    str f :: strings ts'
  | _ :: ts' => exported ts'
  | [] => []
  end.
(** How the macro names the automaton of a rule: [privateuse-subtag] (/repo/src/lib.rs:51) gives [PrivateuseSubtag]
    (/repo/src/normal/private_use.rs, the attribute [automaton] of [PrivateUseSubtag]). *)
Definition upper (b : byte) : byte :=
  if in_range "a" "z" b then match Strings.Byte.of_N (code b - 32) with Some c => c | None => b end else b.
Fixpoint pascal_from (first : bool) (s : bytes) : bytes :=
  match s with
  | b :: r => if beq b "-" then pascal_from true r else (if first then upper b else b) :: pascal_from false r
  | [] => []
  end.
Definition pascal (x : string) : string := str (pascal_from true (bs x)).

(** * 2. The interpreter, with [V a s] for what the automaton [a] answers on [s] *)

Definition call_step_with (V : string -> bytes -> bool) (P : program) (ev : evaluator) (call : caller) (f : value)
  (args : list value) : outcome (value * list value) :=
  match f with
  | VPath p =>
    match resolve P p, args with
    | TgNew t a, [VStr s] =>
      Ret (if V a s then okv (tuple1 t (VStr s)) else errv (tuple1 ("Invalid" ++ t)%string (VStr s)), [])
    | TgNew t a, [VBytes s] =>
      Ret (if V a s then okv (tuple1 t (VStr s)) else errv (tuple1 ("Invalid" ++ t)%string (VBytes s)), [])
    | TgNew _ _, _ => OutOfFuel
    | _, _ => call_step P ev call f args
    end
  | _ => call_step P ev call f args
  end.
Fixpoint eval_with (M : nat) (V : string -> bytes -> bool) (P : program) (n : nat) (e : env) (x : expr) {struct n} : res :=
  match n with
  | O => OutOfFuel
  | S n => eval_step M P (eval_with M V P n) (call_with M V P n) e x
  end
with call_with (M : nat) (V : string -> bytes -> bool) (P : program) (n : nat) (f : value) (args : list value) {struct n}
  : outcome (value * list value) :=
  match n with
  | O => OutOfFuel
  | S n => call_step_with V P (eval_with M V P n) (call_with M V P n) f args
  end.
(** The compiled files, run with the automata [V], on every machine that has room for the arguments. *)
Definition runs_with (V : string -> bytes -> bool) (f : list string) (args : list value) (r : outcome (value * list value)) : Prop :=
  exists P, load compiled_files (Program [] [] [] [] []) = Some P /\
    forall M, 64 <= M -> rooms args <= M -> exists N, forall n, N <= n -> call_with M V P n (VPath f) args = r.

(** The names that are not in the module [grammar]. *)
Definition outside (x : string) : bool := negb (String.prefix "grammar::" x).
(** A call that does not mention the module [grammar]. *)
Definition plain_call (f : list string) (args : list value) : bool :=
  forallb outside f && forallb (ok_value outside (fun _ => true)) args.

(** * 3. Both programs resolve the same names *)

Lemma find_fn_filter q l t m : q t = true -> find_fn (filter (fun e => q (en_type e)) l) t m = find_fn l t m.
Proof.
  intros T. induction l as [|e l IH]; [reflexivity|]. cbn.
  destruct (q (en_type e)) eqn:E; cbn; rewrite IH; [reflexivity|].
  destruct (String.eqb (en_type e) t) eqn:X; [|reflexivity]. apply String.eqb_eq in X. congruence.
Qed.
Lemma find_qualified_filter q l t r x m : q t = true ->
  find_qualified (filter (fun e => q (en_type e)) l) t r x m = find_qualified l t r x m.
Proof.
  intros T. induction l as [|e l IH]; [reflexivity|]. cbn.
  destruct (q (en_type e)) eqn:E; cbn; rewrite IH; [reflexivity|].
  destruct (String.eqb (en_type e) t) eqn:X; [|reflexivity]. apply String.eqb_eq in X. congruence.
Qed.
Lemma find_struct_filter q l t : q t = true -> find_struct (filter (fun s => q (fst (fst s))) l) t = find_struct l t.
Proof.
  intros T. induction l as [|[[u a] fs] l IH]; [reflexivity|]. cbn.
  destruct (q u) eqn:E; cbn; rewrite IH; [reflexivity|].
  destruct (String.eqb t u) eqn:X; [|reflexivity]. apply String.eqb_eq in X. congruence.
Qed.
Lemma compiled_fns : fns compiled = filter (fun e => outside (en_type e)) (fns crate).
Proof. vm_cast_no_check (eq_refl (fns compiled)). Qed.
Lemma compiled_structs : structs compiled = filter (fun s => outside (fst (fst s))) (structs crate).
Proof. vm_cast_no_check (eq_refl (structs compiled)). Qed.
Lemma compiled_consts : consts compiled = consts crate. Proof. vm_cast_no_check (eq_refl (consts crate)). Qed.
Lemma compiled_enums : enums compiled = enums crate. Proof. vm_cast_no_check (eq_refl (enums crate)). Qed.
Lemma compiled_aliases : aliases compiled = aliases crate. Proof. vm_cast_no_check (eq_refl (aliases crate)). Qed.

Lemma resolve_shape p : (exists t r x m, p = [t; "as"; r; x; m]) \/
  forall P, resolve P p = match rev p with
                          | x :: t :: _ => resolve2 P (unalias (aliases P) t) x
                          | [x] => resolve1 P x
                          | [] => TgNone
                          end.
Proof.
  unfold resolve.
  repeat lazymatch goal with
  | |- _ \/ (forall P, match ?x with _ => _ end = _) => destruct x; try (right; intro; reflexivity)
  end. left. repeat eexists.
Qed.

Lemma resolve1_same x : outside x = true -> resolve1 compiled x = resolve1 crate x.
Proof.
  intros X. unfold resolve1.
  rewrite compiled_fns, compiled_structs, compiled_consts, compiled_enums.
  rewrite (find_fn_filter outside) by reflexivity. rewrite (find_struct_filter outside) by exact X. reflexivity.
Qed.
Lemma resolve2_same t x : outside t = true -> outside x = true -> resolve2 compiled t x = resolve2 crate t x.
Proof.
  intros T X. unfold resolve2. rewrite (resolve1_same x X).
  rewrite compiled_fns, compiled_structs, compiled_consts, compiled_enums.
  rewrite (find_fn_filter outside) by exact T. rewrite (find_struct_filter outside) by exact T. reflexivity.
Qed.
Lemma unalias_outside t : outside t = true -> outside (unalias (aliases crate) t) = true.
Proof.
  assert (A : forallb (fun a => outside (snd a)) (aliases crate) = true) by (vm_compute; reflexivity).
  intros T. induction (aliases crate) as [|[x u] l IH]; [exact T|]. cbn in *. apply andb_prop in A as [A1 A2].
  destruct (String.eqb x t); auto.
Qed.
Lemma forallb_rev {A} (q : A -> bool) l : forallb q l = true -> forallb q (rev l) = true.
Proof. rewrite !forallb_forall. intros H x X. apply H. now apply in_rev. Qed.
Lemma resolve_same p : forallb outside p = true -> resolve compiled p = resolve crate p.
Proof.
  intros H. destruct (resolve_shape p) as [(t & r & x & m & ->)|S].
  - cbn [resolve]. rewrite compiled_fns, (find_qualified_filter outside); [reflexivity|].
    cbn in H. now apply andb_prop in H as [H _].
  - rewrite !S. apply forallb_rev in H. destruct (rev p) as [|x [|t l]]; [reflexivity|..].
    + cbn in H. apply andb_prop in H as [H _]. now apply resolve1_same.
    + cbn in H. apply andb_prop in H as [H1 H]. apply andb_prop in H as [H2 _]. rewrite compiled_aliases.
      apply resolve2_same; [now apply unalias_outside|exact H1].
Qed.

(** * 4. The compiled files do not mention the module [grammar] *)

(** Types have good names, and functions with good names mention good names only. *)
Definition ok_entry (ok : string -> bool) (e : entry) : bool :=
  ok (en_type e) && implb (ok (fn_name (en_fn e))) (ok_expr ok (fn_body (en_fn e))).
Definition ok_program (ok : string -> bool) (P : program) : bool :=
  forallb (ok_entry ok) (fns P) &&
  forallb (fun c => ok (fst (fst c)) && ok_expr ok (snd c)) (consts P) &&
  forallb (fun s => ok (fst (fst s)) && ok ("Invalid" ++ fst (fst s))%string) (structs P) &&
  forallb (fun e => ok (fst e)) (enums P) && forallb (fun a => ok (snd a)) (aliases P) &&
  forallb ok ["char"; "try_from"; "as"; "TryFrom"] && forallb ok library.

Section Ok.
Variable ok : string -> bool.
Variable okt : bytes -> bool.
Variable P : program.
Hypothesis OK : ok_program ok P = true.

Lemma ok_fns e : In e (fns P) -> ok_entry ok e = true.
Proof. unfold ok_program in OK. rewrite !andb_true_iff in OK. destruct OK as ((((((H & _) & _) & _) & _) & _) & _).
  now apply (proj1 (forallb_forall (ok_entry ok) (fns P)) H e). Qed.
Lemma entry_target e : ok_entry ok e = true -> ok (fn_name (en_fn e)) = true -> ok_target ok okt (TgFn (en_type e) (en_fn e)) = true.
Proof.
  unfold ok_entry. cbn [ok_target]. unfold ok_fn. intros H N. rewrite N in *. exact H.
Qed.
Lemma ok_consts c : In c (consts P) -> ok (fst (fst c)) && ok_expr ok (snd c) = true.
Proof. unfold ok_program in OK. rewrite !andb_true_iff in OK. destruct OK as ((((((_ & H) & _) & _) & _) & _) & _).
  now apply (proj1 (forallb_forall (fun c => ok (fst (fst c)) && ok_expr ok (snd c)) (consts P)) H c). Qed.
Lemma ok_structs s : In s (structs P) -> ok (fst (fst s)) && ok ("Invalid" ++ fst (fst s))%string = true.
Proof. unfold ok_program in OK. rewrite !andb_true_iff in OK. destruct OK as ((((((_ & _) & H) & _) & _) & _) & _).
  now apply (proj1 (forallb_forall (fun s => ok (fst (fst s)) && ok ("Invalid" ++ fst (fst s))%string) (structs P)) H s). Qed.
Lemma ok_enums e : In e (enums P) -> ok (fst e) = true.
Proof. unfold ok_program in OK. rewrite !andb_true_iff in OK. destruct OK as ((((((_ & _) & _) & H) & _) & _) & _).
  now apply (proj1 (forallb_forall (fun e => ok (fst e)) (enums P)) H e). Qed.
Lemma ok_names x : In x (["char"; "try_from"; "as"; "TryFrom"] ++ library) -> ok x = true.
Proof. unfold ok_program in OK. rewrite !andb_true_iff in OK. destruct OK as ((((((_ & _) & _) & _) & _) & H) & H').
  intros X. apply in_app_or in X as [X|X]; [exact (proj1 (forallb_forall ok _) H x X)|exact (proj1 (forallb_forall ok _) H' x X)]. Qed.

Lemma find_fn_in l t m f : find_fn l t m = Some f ->
  exists e, In e l /\ en_type e = t /\ en_fn e = f /\ fn_name f = m.
Proof.
  induction l as [|e l IH]; cbn; [discriminate|]. destruct (String.eqb (en_type e) t) eqn:T; cbn.
  - destruct (String.eqb (fn_name (en_fn e)) m) eqn:N.
    + intros [= <-]. exists e. apply String.eqb_eq in T, N. auto.
    + intros H. destruct (IH H) as (e' & I & E). exists e'. auto.
  - intros H. destruct (IH H) as (e' & I & E). exists e'. auto.
Qed.
Lemma find_qualified_in l t r x m f : find_qualified l t r x m = Some f ->
  exists e, In e l /\ en_type e = t /\ en_fn e = f /\ fn_name f = m.
Proof.
  induction l as [|e l IH]; cbn; [discriminate|]. destruct (_ && _ && _) eqn:T.
  - intros [= <-]. exists e. rewrite !andb_true_iff in T. destruct T as ((T & _) & N). apply String.eqb_eq in T, N. auto.
  - intros H. destruct (IH H) as (e' & I & E). exists e'. auto.
Qed.
Lemma find_try_from_in l x t : find_try_from l x = Some t -> exists e, In e l /\ en_type e = t.
Proof.
  induction l as [|e l IH]; cbn; [discriminate|]. destruct (is_trait _ _ _).
  - intros [= <-]. exists e. auto.
  - intros H. destruct (IH H) as (e' & I & E). exists e'. auto.
Qed.
Lemma find_const_in l t x e : find_const l t x = Some e -> In (t, x, e) l.
Proof.
  induction l as [|[[u y] z] l IH]; cbn; [discriminate|]. destruct (_ && _) eqn:T.
  - intros [= <-]. apply andb_prop in T as [T1 T2]. apply String.eqb_eq in T1, T2. subst. auto.
  - auto.
Qed.
Lemma find_struct_in l t a : find_struct l t = Some a -> In (t, fst a, snd a) l.
Proof.
  induction l as [|[[u y] z] l IH]; cbn; [discriminate|]. destruct (String.eqb t u) eqn:T.
  - intros [= <-]. apply String.eqb_eq in T. subst. auto.
  - auto.
Qed.
Lemma find_enum_in l t a : find_enum l t = Some a -> In (t, a) l.
Proof.
  induction l as [|[u y] l IH]; cbn; [discriminate|]. destruct (String.eqb t u) eqn:T.
  - intros [= <-]. apply String.eqb_eq in T. subst. auto.
  - auto.
Qed.
Lemma find_any_variant_in l c t k : find_any_variant l c = Some (t, k) -> exists vs, In (t, vs) l.
Proof.
  induction l as [|[u y] l IH]; cbn; [discriminate|]. destruct (find_variant y c).
  - intros [= <- <-]. exists y. auto.
  - intros H. destruct (IH H) as (vs & I). exists vs. auto.
Qed.

Lemma fn_target t m f : ok m = true -> find_fn (fns P) t m = Some f -> ok_target ok okt (TgFn t f) = true.
Proof. intros K H. destruct (find_fn_in _ _ _ _ H) as (e & I & <- & <- & <-). exact (entry_target e (ok_fns e I) K). Qed.
Lemma const_target t x e : find_const (consts P) t x = Some e -> ok_target ok okt (TgConst t e) = true.
Proof. intros H. exact (ok_consts _ (find_const_in _ _ _ _ H)). Qed.

Lemma resolve1_ok x : ok x = true -> ok_target ok okt (resolve1 P x) = true.
Proof.
  intros K.
  assert (B : ok_target ok okt match find_fn (fns P) "" x with
    | Some f => TgFn "" f
    | None => match find_struct (structs P) x with
      | Some _ => TgStruct x
      | None => match find_const (consts P) "" x with
        | Some e => TgConst "" e
        | None => match find_any_variant (enums P) x with Some (t, k) => TgVariant t x k | None => TgNone end
        end end end = true).
  { destruct (find_fn (fns P) "" x) as [f|] eqn:F; [exact (fn_target _ _ _ K F)|].
    destruct (find_struct (structs P) x) as [a|] eqn:S.
    { apply find_struct_in in S. apply ok_structs, andb_prop in S. exact (proj1 S). }
    destruct (find_const (consts P) "" x) as [e|] eqn:C; [exact (const_target _ _ _ C)|].
    destruct (find_any_variant (enums P) x) as [[t k]|] eqn:V; [|reflexivity].
    apply find_any_variant_in in V as (vs & V). exact (ok_enums _ V). }
  assert (ok "Option" = true /\ ok "Result" = true) as [O R] by (split; apply ok_names; cbn; tauto).
  unfold resolve1. revert B.
  lazymatch goal with |- ok_target ok okt ?L = true -> _ => generalize L end. intros L B. clear OK.
  repeat lazymatch goal with
  | |- ok_target ok okt (match ?x with _ => _ end) = true => destruct x; try exact B; try exact O; try exact R; try reflexivity
  end.
Qed.
Lemma resolve2_ok t x : ok x = true -> ok_target ok okt (resolve2 P t x) = true.
Proof.
  intros K. unfold resolve2.
  destruct (find_fn (fns P) t x) as [f|] eqn:F; [exact (fn_target _ _ _ K F)|].
  destruct (find_enum (enums P) t) as [vs|] eqn:N.
  { destruct (find_variant vs x); [|reflexivity]. apply find_enum_in in N. exact (ok_enums _ N). }
  destruct (find_const (consts P) t x) as [e|] eqn:C; [exact (const_target _ _ _ C)|].
  destruct (find_struct (structs P) t) as [[attrs fs]|] eqn:S.
  - apply find_struct_in in S. apply ok_structs, andb_prop in S as [S _]. cbn in S. clear - S.
    repeat lazymatch goal with
    | |- ok_target ok okt (match ?x with _ => _ end) = true => destruct x; try exact S; try reflexivity
    end.
  - pose proof (resolve1_ok x K) as B. clear - OK B. revert B. generalize (resolve1 P x). intros L B. assert (O : ok "Ordering" = true) by (apply ok_names; cbn; tauto).
    repeat lazymatch goal with
    | |- ok_target ok okt (match ?x with _ => _ end) = true => destruct x; try exact B; try exact O; try reflexivity
    end.
Qed.
Lemma resolve_ok p : forallb ok p = true -> ok_target ok okt (resolve P p) = true.
Proof.
  intros K.
  destruct (resolve_shape p) as [(t & r & x & m & ->)|S].
  - cbn [resolve]. destruct (find_qualified (fns P) t r x m) as [f|] eqn:F; [|reflexivity].
    destruct (find_qualified_in _ _ _ _ _ _ F) as (e & I & <- & <- & <-).
    apply (entry_target e (ok_fns e I)). cbn in K. rewrite !andb_true_iff in K. tauto.
  - rewrite S. apply forallb_rev in K. destruct (rev p) as [|x [|t l]]; [reflexivity|..]; cbn in K;
      apply andb_prop in K as [K _]; [now apply resolve1_ok|now apply resolve2_ok].
Qed.
(** Only the types of the crate have a generated [new]. *)
Lemma resolve_new p t a : resolve P p = TgNew t a ->
  exists attrs fs, In (t, attrs, fs) (structs P) /\ automaton_attr attrs = Some a.
Proof.
  assert (N1 : forall x, resolve1 P x <> TgNew t a).
  { intros x. unfold resolve1.
    assert (B : match find_fn (fns P) "" x with
      | Some f => TgFn "" f
      | None => match find_struct (structs P) x with
        | Some _ => TgStruct x
        | None => match find_const (consts P) "" x with
          | Some e => TgConst "" e
          | None => match find_any_variant (enums P) x with Some (t, k) => TgVariant t x k | None => TgNone end
          end end end <> TgNew t a).
    { destruct (find_fn (fns P) "" x); [discriminate|]. destruct (find_struct (structs P) x); [discriminate|].
      destruct (find_const (consts P) "" x); [discriminate|].
      destruct (find_any_variant (enums P) x) as [[]|]; discriminate. }
    revert B. lazymatch goal with |- ?L <> _ -> _ => generalize L end. intros L B. clear OK.
    repeat lazymatch goal with
    | |- (match ?x with _ => _ end) <> _ => destruct x; try exact B; try discriminate
    end. }
  destruct (resolve_shape p) as [(u & r & x & m & ->)|S].
  - cbn [resolve]. destruct (find_qualified (fns P) u r x m); discriminate.
  - rewrite S. destruct (rev p) as [|x [|u l]]; [discriminate|intros H; now destruct (N1 x)|].
    generalize (unalias (aliases P) u). clear u S l. intros u. unfold resolve2.
    destruct (find_fn (fns P) u x); [discriminate|].
    destruct (find_enum (enums P) u) as [vs|]; [destruct (find_variant vs x); discriminate|].
    destruct (find_const (consts P) u x); [discriminate|].
    destruct (find_struct (structs P) u) as [[attrs fs]|] eqn:F.
    + apply find_struct_in in F. cbn in F. destruct (automaton_attr attrs) as [b|] eqn:A.
      * assert (G : TgNew u b = TgNew t a -> exists attrs fs, In (t, attrs, fs) (structs P) /\ automaton_attr attrs = Some a).
        { intros [= <- <-]. exists attrs, fs. auto. }
        clear - G.
        repeat lazymatch goal with
        | |- (match ?x with _ => _ end) = _ -> _ => destruct x; try exact G; try discriminate
        end.
      * clear. repeat lazymatch goal with
        | |- (match ?x with _ => _ end) = _ -> _ => destruct x; try discriminate
        end.
    + specialize (N1 x). clear - N1.
      assert (B : resolve1 P x = TgNew t a -> exists attrs fs, In (t, attrs, fs) (structs P) /\ automaton_attr attrs = Some a)
        by (intros H; now destruct (N1 H)).
      clear N1.
      repeat lazymatch goal with
      | |- (match ?x with _ => _ end) = _ -> _ => destruct x; try exact B; try discriminate
      end.
Qed.
Lemma method_ok v m p : ok m = true -> ok_value ok okt v = true -> method_path P v m = Some p -> forallb ok p = true.
Proof.
  intros M V. destruct v; try discriminate; cbn.
  - destruct (String.eqb m "try_into"); [|discriminate]. destruct (find_try_from (fns P) "char") as [t|] eqn:T; [|discriminate].
    destruct (find_try_from_in _ _ _ T) as (e & I & <-). apply ok_fns, andb_prop in I as [I _]. intros [= <-].
    cbn. rewrite I, !ok_names; [reflexivity|cbn; tauto..].
  - cbn in V. apply andb_prop in V as [V _]. destruct (find_fn (fns P) t m); [|discriminate]. intros [= <-]. cbn. now rewrite V, M.
  - cbn in V. apply andb_prop in V as [V _]. destruct (find_fn (fns P) t m); [|discriminate]. intros [= <-]. cbn. now rewrite V, M.
Qed.
End Ok.

(** * 5. The three machines *)

(** More fuel gives the same result. *)
Lemma crate_ok : ok_program (fun _ => true) crate = true.
Proof. vm_compute. reflexivity. Qed.
Lemma compiled_ok : ok_program outside compiled = true.
Proof. vm_compute. reflexivity. Qed.
Lemma forallb_true {A} (l : list A) : forallb (fun _ => true) l = true.
Proof. induction l; auto. Qed.

Lemma eval_0 M P e x : eval M P 0 e x = OutOfFuel. Proof. reflexivity. Qed.
Lemma call_0 M P f args : call M P 0 f args = OutOfFuel. Proof. reflexivity. Qed.
Lemma eval_S M P n e x : eval M P (S n) e x = eval_step M P (eval M P n) (call M P n) e x. Proof. reflexivity. Qed.
Lemma call_S M P n f args : call M P (S n) f args = call_step_g nw_own P (eval M P n) (call M P n) f args.
Proof. rewrite <- call_step_own. reflexivity. Qed.

Theorem more_fuel M n f args r :
  ok_value (fun _ => true) (fun _ => true) f = true -> forallb (ok_value (fun _ => true) (fun _ => true)) args = true ->
  call M crate n f args = r -> r <> OutOfFuel -> exists m, forall k, m <= k -> call M crate k f args = r.
Proof.
  intros F W C R. pose proof crate_ok as OK.
  destruct (proj2 (sim_machines (fun _ => true) (fun _ => true) eq_refl (forallb_true _)
    (fun _ _ => eq_refl) (fun _ _ _ _ => eq_refl) M crate crate nw_own nw_own
    (eval M crate) (call M crate) (eval M crate) (call M crate) (eval_0 M crate) (call_0 M crate)
    (eval_S M crate) (call_S M crate) (eval_0 M crate) (call_0 M crate) (eval_S M crate) (call_S M crate)
    (fun p _ => eq_refl) (resolve_ok _ _ _ OK) (fun _ _ _ _ _ => eq_refl) (fun _ _ _ _ => eq_refl)
    (fun v m p => method_ok _ _ _ OK v m p)
    ltac:(intros n' p t a s _ _ _ CALL; unfold nw_own;
          apply (sim_bind (ok_result (fun _ => true) (fun _ => true)) (fun _ => True) _
            (fun m => call M crate m (VPath [("grammar::" ++ a)%string; "validate_bytes"]) [VBytes s])
            (fun r => match fst r with VBool b => Ret b | _ => OutOfFuel end)
            (fun _ r => match fst r with VBool b => Ret b | _ => OutOfFuel end));
          [now apply CALL|intros x _; now apply sim_same]) n) f args F W) as [(m & X) _].
  { now rewrite C. }
  exists m. intros k K. now rewrite X.
Qed.

Section Generated.
Variable V : string -> bytes -> bool.
Hypothesis V_right : forall ty s, validate (automaton_of ty) s = Ret (V (automaton_name ty) s).
(** The machine. *)
Variable M : nat.
Hypothesis M_64 : 64 <= M.
Definition short (s : bytes) : bool := length s + 4 <=? M.
Lemma short_literal s : length s <= 60 -> short s = true.
Proof. intros H. apply Nat.leb_le. lia. Qed.
Lemma short_shorter s s' : length s' <= length s -> short s = true -> short s' = true.
Proof. unfold short. rewrite !Nat.leb_le. lia. Qed.

Lemma eval_with_0 P e x : eval_with M V P 0 e x = OutOfFuel. Proof. reflexivity. Qed.
Lemma call_with_0 P f args : call_with M V P 0 f args = OutOfFuel. Proof. reflexivity. Qed.
Lemma eval_with_S P n e x : eval_with M V P (S n) e x = eval_step M P (eval_with M V P n) (call_with M V P n) e x.
Proof. reflexivity. Qed.
Lemma call_with_S P n f args :
  call_with M V P (S n) f args = call_step_g (nw_with V) P (eval_with M V P n) (call_with M V P n) f args.
Proof.
  cbn [call_with]. unfold call_step_with, call_step_g, nw_with. destruct f; try reflexivity.
  destruct (resolve P p) eqn:R; try reflexivity.
  destruct args as [|v args]; [|destruct v, args]; try reflexivity; cbn [call_step]; rewrite R; reflexivity.
Qed.

(** The automata that the types name are those of the model. *)
Lemma named_automaton p t a : resolve crate p = TgNew t a -> exists ty, a = automaton_name ty.
Proof.
  intros H. destruct (resolve_new crate p t a H) as (attrs & fs & I & A).
  assert (X : forallb (fun s => match automaton_attr (snd (fst s)) with
                                | Some a => existsb (fun ty => String.eqb a (automaton_name ty)) new_types
                                | None => true
                                end) (structs crate) = true) by (vm_compute; reflexivity).
  pose proof (proj1 (forallb_forall _ _) X _ I) as Y. cbn [fst snd] in Y. rewrite A in Y.
  apply existsb_exists in Y as (ty & _ & E). exists ty. now apply String.eqb_eq.
Qed.
Lemma own_answer ty n s b : short s = true -> nw_own (call M crate n) (automaton_name ty) s = b -> b <> OutOfFuel ->
  b = Ret (V (automaton_name ty) s).
Proof.
  unfold nw_own. intros F H B. apply Nat.leb_le in F.
  destruct (call M crate n (VPath [("grammar::" ++ automaton_name ty)%string; "validate_bytes"]) [VBytes s]) as [r| |] eqn:C.
  - destruct (more_fuel M n (VPath [_; "validate_bytes"]) [VBytes s] _ eq_refl eq_refl C) as (m & X); [discriminate|].
    specialize (X (m + (80 + length s)) ltac:(lia)). fold (grammar_type ty) in X.
    rewrite validate_bytes_src in X by lia. rewrite V_right in X. cbn in X. injection X as <-. now subst b.
  - exfalso. destruct (more_fuel M n (VPath [_; "validate_bytes"]) [VBytes s] _ eq_refl eq_refl C) as (m & X); [discriminate|].
    specialize (X (m + (80 + length s)) ltac:(lia)). fold (grammar_type ty) in X.
    rewrite validate_bytes_src in X by lia. rewrite V_right in X. discriminate.
  - cbn in H. congruence.
Qed.

Lemma outside_ok p : forallb outside p = true -> ok_target outside short (resolve crate p) = true.
Proof. intros H. rewrite <- resolve_same by exact H. now apply resolve_ok; [apply compiled_ok|]. Qed.
Lemma outside_invalid p t a : forallb outside p = true -> resolve crate p = TgNew t a -> outside ("Invalid" ++ t)%string = true.
Proof. reflexivity. Qed.
Lemma outside_method_path v m : ok_value outside short v = true -> outside m = true -> method_path compiled v m = method_path crate v m.
Proof.
  intros H _. destruct v; cbn [method_path ok_value] in *; lazymatch goal with |- None = None => reflexivity | _ => idtac end.
  - replace (find_try_from (fns compiled) "char") with (find_try_from (fns crate) "char") by (vm_compute; reflexivity). reflexivity.
  - apply andb_prop in H as [H _]. rewrite compiled_fns, (find_fn_filter outside) by exact H. reflexivity.
  - apply andb_prop in H as [H _]. rewrite compiled_fns, (find_fn_filter outside) by exact H. reflexivity.
Qed.
Lemma outside_method v m p :
  outside m = true -> ok_value outside short v = true -> method_path crate v m = Some p -> forallb outside p = true.
Proof. intros X W. rewrite <- outside_method_path by assumption. now apply (method_ok outside short compiled compiled_ok). Qed.

(** What the compiled files give with [V], all fourteen give. *)
Theorem with_own n f args : ok_value outside short f = true -> forallb (ok_value outside short) args = true ->
  sim (ok_result outside short) (call_with M V compiled n f args) (fun m => call M crate m f args).
Proof.
  refine (proj2 (sim_machines outside short eq_refl eq_refl short_literal short_shorter M compiled crate (nw_with V) nw_own
    (eval_with M V compiled) (call_with M V compiled) (eval M crate) (call M crate) (eval_with_0 compiled) (call_with_0 compiled)
    (eval_with_S compiled) (call_with_S compiled) (eval_0 M crate) (call_0 M crate) (eval_S M crate) (call_S M crate)
    resolve_same outside_ok outside_invalid outside_method_path outside_method _ n) f args).
  intros k p t a s _ T F _. destruct (named_automaton p t a T) as (ty & ->). apply Nat.leb_le in F.
  intros _. split; [|auto]. exists (80 + length s). intros m L. unfold nw_own, nw_with. fold (grammar_type ty).
  rewrite validate_bytes_src by assumption. rewrite V_right. reflexivity.
Qed.
(** And conversely. *)
Theorem own_with n f args : ok_value outside short f = true -> forallb (ok_value outside short) args = true ->
  sim (ok_result outside short) (call M crate n f args) (fun m => call_with M V compiled m f args).
Proof.
  refine (proj2 (sim_machines outside short eq_refl eq_refl short_literal short_shorter M crate compiled nw_own (nw_with V)
    (eval M crate) (call M crate) (eval_with M V compiled) (call_with M V compiled) (eval_0 M crate) (call_0 M crate)
    (eval_S M crate) (call_S M crate) (eval_with_0 compiled) (call_with_0 compiled) (eval_with_S compiled) (call_with_S compiled)
    (fun p H => eq_sym (resolve_same p H)) (resolve_ok _ _ _ compiled_ok) (fun p t a _ _ => eq_refl)
    (fun v m H H' => eq_sym (outside_method_path v m H H')) (fun v m p => method_ok _ _ _ compiled_ok v m p) _ n) f args).
  intros k p t a s O T F _. rewrite resolve_same in T by exact O. destruct (named_automaton p t a T) as (ty & ->).
  intros N. split; [|auto]. exists 0. intros m _. unfold nw_with. symmetry. now apply (own_answer ty k).
Qed.

(** The texts in a value that the machine has room for are short. *)
Lemma room_list {A} (g : A -> nat) l : list_max (map g l) <= M -> forall x, In x l -> g x <= M.
Proof.
  intros H x X. rewrite list_max_le, Forall_forall in H. apply H. now apply in_map.
Qed.
Lemma room_cons n l : list_max (n :: l) <= M -> n <= M /\ list_max l <= M.
Proof. cbn [list_max fold_right]. change (fold_right Nat.max 0 l) with (list_max l). lia. Qed.
Lemma room_ok v : ok_value outside (fun _ => true) v = true -> room v <= M -> ok_value outside short v = true.
Proof.
  revert v. fix IH 1. intros v.
  assert (L : forall l, forallb (ok_value outside (fun _ => true)) l = true -> list_max (map room l) <= M ->
    forallb (ok_value outside short) l = true).
  { induction l as [|w l IHl]; [reflexivity|]. cbn [forallb map]. rewrite !andb_true_iff. intros [W X] Y.
    apply room_cons in Y as [Y1 Y2]. split; [apply IH|apply IHl]; assumption. }
  assert (L' : forall l : env, forallb (fun f => ok_value outside (fun _ => true) (snd f)) l = true ->
    list_max (map (fun f => room (snd f)) l) <= M -> forallb (fun f => ok_value outside short (snd f)) l = true).
  { induction l as [|w l IHl]; [reflexivity|]. cbn [forallb map]. rewrite !andb_true_iff. intros [W X] Y.
    apply room_cons in Y as [Y1 Y2]. split; [apply IH|apply IHl]; assumption. }
  destruct v; cbn [ok_value room]; intros H R; try exact H; try (now apply Nat.leb_le);
    try (apply andb_prop in H as [H1 H2]; apply andb_true_intro; split); auto.
Qed.
Lemma rooms_ok args : forallb (ok_value outside (fun _ => true)) args = true -> rooms args <= M ->
  forallb (ok_value outside short) args = true.
Proof.
  unfold rooms. rewrite !forallb_forall. intros H R v X. apply room_ok; [now apply H|]. exact (room_list room args R v X).
Qed.
End Generated.

Theorem runs_both V f args r : (forall ty s, validate (automaton_of ty) s = Ret (V (automaton_name ty) s)) ->
  plain_call f args = true -> r <> OutOfFuel -> (runs f args r <-> runs_with V f args r).
Proof.
  intros VR A R. apply andb_prop in A as [A1 A2]. split.
  - intros H. exists compiled. split; [exact compiled_is_the_source|]. intros M L F.
    destruct (runs_inv _ _ _ H M L F) as (N & X).
    pose proof (own_with V VR M L N (VPath f) args A1 (rooms_ok M L args A2 F)) as Z. rewrite X in Z by lia.
    exact (proj1 (Z R)).
  - intros (P & L & H). rewrite compiled_is_the_source in L. injection L as <-.
    exists crate. split; [exact crate_is_the_source|]. intros M L F. destruct (H M L F) as (N & X).
    pose proof (with_own V VR M L N (VPath f) args A1 (rooms_ok M L args A2 F)) as Z. rewrite X in Z by lia.
    exact (proj1 (Z R)).
Qed.
