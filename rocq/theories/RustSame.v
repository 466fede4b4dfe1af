(** The edits that change nothing a client can see. *)
From Verif Require Import Base GrammarRs Validate Utils Grandfathered Normal LangTag Newtypes Derived Spec Observe Case NoOverflow
  Grammar Direct Accept Parse Scan Access Iter Kind Parts Values Order More.
From Verif Require Import RustText RustSyntax RustEval RustProgram RustRefine RustGrammar RustValidate RustNormal RustAccess
  RustTags RustLib RustSays RustOracle RustGenerated RustClient RustBranches RustUnused RustEdits.
Import Base.
Open Scope string_scope.
Open Scope nat_scope.
Open Scope list_scope.

(** * 1. Programs that agree outside some functions *)

Section Agree.
Variable own : string -> bool.
Hypothesis own_last : own "" = true.
Hypothesis own_library : forallb own library = true.
Hypothesis own_validate : forall a, own ("grammar::" ++ a)%string && own "validate_bytes" = true.
Definition owned (l : list entry) : list entry := filter (fun e => own (fn_name (en_fn e))) l.

Lemma find_fn_owned l t m : own m = true -> find_fn (owned l) t m = find_fn l t m.
Proof.
  intros T. unfold owned. induction l as [|e l IH]; [reflexivity|]. cbn.
  destruct (own (fn_name (en_fn e))) eqn:E; cbn; rewrite IH; [reflexivity|].
  destruct (String.eqb (fn_name (en_fn e)) m) eqn:X; [|now rewrite andb_false_r]. apply String.eqb_eq in X. congruence.
Qed.
Lemma find_qualified_owned l t r x m : own m = true -> find_qualified (owned l) t r x m = find_qualified l t r x m.
Proof.
  intros T. unfold owned. induction l as [|e l IH]; [reflexivity|]. cbn.
  destruct (own (fn_name (en_fn e))) eqn:E; cbn; rewrite IH; [reflexivity|].
  destruct (String.eqb (fn_name (en_fn e)) m) eqn:X; [|now rewrite andb_false_r]. apply String.eqb_eq in X. congruence.
Qed.

Variables P Q : program.
Hypothesis fns_same : owned (fns Q) = owned (fns P).
Hypothesis rest_same : structs Q = structs P /\ consts Q = consts P /\ enums Q = enums P /\ aliases Q = aliases P.
Hypothesis Q_ok : ok_program own Q = true.
Hypothesis try_same : find_try_from (fns Q) "char" = find_try_from (fns P) "char".

Lemma agree_find_fn t m : own m = true -> find_fn (fns P) t m = find_fn (fns Q) t m.
Proof. intros A. rewrite <- find_fn_owned, <- fns_same by exact A. now apply find_fn_owned. Qed.
Lemma agree_resolve1 x : own x = true -> resolve1 P x = resolve1 Q x.
Proof. intros A. unfold resolve1. destruct rest_same as (-> & -> & -> & _). now rewrite (agree_find_fn "" x A). Qed.
Lemma agree_resolve2 t x : own x = true -> resolve2 P t x = resolve2 Q t x.
Proof.
  intros A. unfold resolve2. rewrite (agree_resolve1 x A). destruct rest_same as (-> & -> & -> & _).
  now rewrite (agree_find_fn t x A).
Qed.
Lemma agree_resolve p : forallb own p = true -> resolve P p = resolve Q p.
Proof.
  intros H. destruct (resolve_shape p) as [(t & r & x & m & ->)|S].
  - cbn [resolve]. apply forallb_rev in H. cbn [rev app forallb] in H. apply andb_prop in H as [H _].
    rewrite <- (find_qualified_owned (fns P)), <- fns_same, find_qualified_owned by exact H. reflexivity.
  - rewrite !S. apply forallb_rev in H. destruct rest_same as (_ & _ & _ & ->).
    destruct (rev p) as [|x [|t l]]; [reflexivity|..]; cbn [forallb] in H; apply andb_prop in H as [H _];
      [now apply agree_resolve1|now apply agree_resolve2].
Qed.
Lemma agree_method v m : ok_value own (fun _ => true) v = true -> own m = true -> method_path P v m = method_path Q v m.
Proof.
  intros _ A. destruct v; cbn [method_path]; lazymatch goal with |- None = None => reflexivity | _ => idtac end.
  - now rewrite try_same.
  - now rewrite (agree_find_fn _ m A).
  - now rewrite (agree_find_fn _ m A).
Qed.

(** Calls that name none of the others give the same results, with the same fuel. *)
Definition own_call (f : list string) (args : list value) : bool :=
  forallb own f && forallb (ok_value own (fun _ => true)) args.
Theorem agree M n f args : own_call f args = true -> call M Q n (VPath f) args = call M P n (VPath f) args.
Proof.
  unfold own_call. intros H. apply andb_prop in H as [F W].
  refine (proj1 (proj2 (same_machines own (fun _ => true) own_last own_library
    (fun _ _ => eq_refl) (fun _ _ _ _ => eq_refl) M P Q nw_own nw_own
    (eval M P) (call M P) (eval M Q) (call M Q) (eval_0 M P) (call_0 M P)
    (eval_S M P) (call_S M P) (eval_0 M Q) (call_0 M Q) (eval_S M Q) (call_S M Q)
    agree_resolve (resolve_ok _ _ _ Q_ok) _ agree_method (fun v m p => method_ok _ _ _ Q_ok v m p) _ n)
    (VPath f) args F W)).
  - intros p t a _ R. destruct (resolve_new Q p t a R) as (attrs & fs & I & _).
    apply (ok_structs own Q Q_ok) in I. now apply andb_prop in I as [_ I].
  - intros n' p t a s _ _ _ CALL. unfold nw_own.
    apply (same_bind n' (ok_result own (fun _ => true)) (fun _ => True) _
      (fun m => call M Q m (VPath [("grammar::" ++ a)%string; "validate_bytes"]) [VBytes s])
      (fun r => match fst r with VBool b => Ret b | _ => OutOfFuel end)
      (fun _ r => match fst r with VBool b => Ret b | _ => OutOfFuel end)).
    + apply CALL; [|reflexivity]. cbn [ok_value forallb]. rewrite andb_true_r. apply own_validate.
    + intros x _. now apply same_same.
Qed.
End Agree.

(** * 2. The programs *)

(** The functions that the edits of [get] cannot reach; those of [find_segment_start] and [next_back] are [free]. *)
Definition get_free (x : string) : bool := negb (existsb (String.eqb x) [ "get"; "iter_extension" ]).
Definition same_edits : list (entry * nat * list entry) :=
  filter (fun x => local_edit (fst (fst x)) (snd (fst x))) (entry_edits in_grammar (fns crate)).
Definition same_program (k : nat) : program :=
  match nth_error same_edits k with Some (_, l) => with_fns l | None => Program [] [] [] [] [] end.
Definition back_gt : program := Eval vm_compute in same_program 0.
Definition get_le : program := Eval vm_compute in same_program 1.
Definition get_two : program := Eval vm_compute in same_program 2.
Definition start_ge : program := Eval vm_compute in same_program 3.
Definition start_one : program := Eval vm_compute in same_program 4.
Definition start_two : program := Eval vm_compute in same_program 5.
Definition start_last : program := Eval vm_compute in same_program 6.
Definition start_else : program := Eval vm_compute in same_program 7.
Definition same_programs : list program := [ back_gt; get_le; get_two; start_ge; start_one; start_two; start_last; start_else ].
Lemma same_edits_eq : map (fun x => with_fns (snd x)) same_edits = same_programs.
Proof. vm_cast_no_check (eq_refl same_programs). Qed.

Definition get_free_fns : list entry := Eval vm_compute in owned get_free (fns crate).
Lemma get_free_crate : owned get_free (fns crate) = get_free_fns.
Proof. vm_cast_no_check (eq_refl get_free_fns). Qed.
Definition agrees (own : string -> bool) (Q : program) : Prop :=
  forall M n f args, own_call own f args = true -> call M Q n (VPath f) args = call M crate n (VPath f) args.
Lemma agrees_intro own Q l : own "" = true -> forallb own library = true ->
  (forall a, own ("grammar::" ++ a)%string && own "validate_bytes" = true) ->
  owned own (fns crate) = l -> owned own (fns Q) = l ->
  structs Q = structs crate /\ consts Q = consts crate /\ enums Q = enums crate /\ aliases Q = aliases crate ->
  ok_program own Q = true -> find_try_from (fns Q) "char" = find_try_from (fns crate) "char" -> agrees own Q.
Proof.
  intros E L V A F R K T M n f args. apply (agree own E L V crate Q).
  - exact (eq_trans F (eq_sym A)).
  - exact R.
  - exact K.
  - exact T.
Qed.
Ltac agreeing l A :=
  lazymatch goal with |- agrees ?own ?Q => refine (agrees_intro own Q l eq_refl eq_refl (fun _ => eq_refl) A _ _ _ _) end;
  [ vm_cast_no_check (eq_refl l)
  | repeat split; lazymatch goal with |- _ = ?r => vm_cast_no_check (eq_refl r) end
  | vm_cast_no_check (eq_refl true)
  | lazymatch goal with |- _ = ?r => vm_cast_no_check (eq_refl r) end ].
Lemma get_le_agrees : agrees get_free get_le. Proof. agreeing get_free_fns get_free_crate. Qed.
Lemma get_two_agrees : agrees get_free get_two. Proof. agreeing get_free_fns get_free_crate. Qed.
Lemma back_gt_agrees : agrees free back_gt. Proof. agreeing left_alone left_alone_crate. Qed.
Lemma start_ge_agrees : agrees free start_ge. Proof. agreeing left_alone left_alone_crate. Qed.
Lemma start_one_agrees : agrees free start_one. Proof. agreeing left_alone left_alone_crate. Qed.
Lemma start_two_agrees : agrees free start_two. Proof. agreeing left_alone left_alone_crate. Qed.
Lemma start_last_agrees : agrees free start_last. Proof. agreeing left_alone left_alone_crate. Qed.
Lemma start_else_agrees : agrees free start_else. Proof. agreeing left_alone left_alone_crate. Qed.

(** * 3. [find_segment_start], at the end of a subtag of two bytes or more *)

Definition at_end (s : bytes) (e : nat) : Prop :=
  2 <= e /\ (exists b, index s (e - 1) = Ret b /\ beq b dash = false) /\ find_segment_start s e <> Ret 1.

(** The loop with [i > 1] for [i > 0]. *)
Fixpoint start_loop_last (s : bytes) (i : nat) : outcome nat :=
  let! b := index s i in
  if beq b dash then Ret (i + 1) else match i with S (S _ as i') => start_loop_last s i' | _ => Ret 0 end.
Lemma start_loop_last_same s i : find_segment_start_loop s i <> Ret 1 -> start_loop_last s i = find_segment_start_loop s i.
Proof.
  induction i as [|i IH]; cbn [start_loop_last find_segment_start_loop]; [reflexivity|]. intros N.
  destruct (index s (S i)) as [b| |] eqn:E; cbn [bind] in *; [|reflexivity|reflexivity]. destruct (beq b dash); [reflexivity|].
  destruct i as [|i]; [|exact (IH N)]. cbn [find_segment_start_loop] in *. unfold index in *.
  destruct s as [|b0 s]; [discriminate E|]. cbn [nth_error bind] in *. destruct (beq b0 dash); [|reflexivity]. now contradict N.
Qed.

Ltac start_loop M Q s :=
  match goal with
  | |- context [eval M Q _ (_ :: ?e) (ELoop ?b)] =>
    assert (forall i n, 30 + i <= n ->
      ends (eval M Q n (("i", VNat i) :: e) (ELoop b)) =
      omap (fun v => Some (VNat v)) (find_segment_start_loop s i)) as L;
    [ let i := fresh "i" in let n := fresh "n" in let IH := fresh "IH" in let x := fresh "x" in let B := fresh "B" in
      intro i; induction i as [|i IH]; intros n Hn'; fuel n 30; cbn [find_segment_start_loop]; unroll;
      match goal with |- context [index s ?j] => destruct (index s j) as [x| |] eqn:?; [|reflexivity|reflexivity] end; run;
      destruct (beq x dash) eqn:B; unfold dash in B; rewrite B; run; try reflexivity;
      cbn [Nat.ltb Nat.leb]; run; cbn [Nat.leb Nat.sub]; run; rewrite ?Nat.sub_0_r; apply IH; lia | ]
  end.
Ltac start M Q s e :=
  match goal with n : nat |- context [call _ _ ?n _ _] => fuel n 50 end; enter; run; unfold find_segment_start, lift; run;
  cbn [Nat.ltb Nat.leb]; run; cbn [Nat.leb Nat.sub]; run; rewrite ?Nat.sub_0_r;
  start_loop M Q s.

Definition starts (Q : program) : Prop := forall M n s e, 60 + e <= n -> length s + 4 <= M -> at_end s e ->
  call M Q n (VPath ["find_segment_start"]) [VStr s; VNat e] = lift VNat (find_segment_start s e).
Lemma start_ge_starts : starts start_ge.
Proof.
  intros M n s [|e] Hn HM (A & _ & _); [lia|]. start M start_ge s e.
  rewrite finish2, (L e) by lia. now destruct (find_segment_start_loop s e).
Qed.
Lemma start_else_starts : starts start_else.
Proof.
  intros M n s [|e] Hn HM (A & _ & _); [lia|]. start M start_else s e.
  rewrite finish2, (L e) by lia. now destruct (find_segment_start_loop s e).
Qed.
Lemma back_gt_starts : starts back_gt.
Proof.
  intros M n s [|e] Hn HM (A & _ & _); [lia|]. start M back_gt s e.
  rewrite finish2, (L e) by lia. now destruct (find_segment_start_loop s e).
Qed.
Lemma start_one_starts : starts start_one.
Proof.
  intros M n s [|[|e]] Hn HM (A & _ & _); [lia|lia|]. start M start_one s e.
  rewrite finish2, (L (S e)) by lia. now destruct (find_segment_start_loop s (S e)).
Qed.
Lemma start_two_starts : starts start_two.
Proof.
  intros M n s [|[|e]] Hn HM (A & (b & E & B) & _); [lia|lia|]. cbn [Nat.sub] in E. start M start_two s e.
  rewrite finish2, (L e) by lia. cbn [find_segment_start_loop]. rewrite E. cbn [bind]. rewrite B.
  now destruct (find_segment_start_loop s e).
Qed.
Lemma start_last_starts : starts start_last.
Proof.
  intros M n s [|e] Hn HM (A & _ & B0); [lia|]. cbn [find_segment_start] in B0. fuel n 50. enter. run. unfold find_segment_start, lift. run.
  cbn [Nat.ltb Nat.leb]. run. cbn [Nat.leb Nat.sub]. run. rewrite ?Nat.sub_0_r.
  rewrite <- (start_loop_last_same s e B0). clear B0.
  match goal with
  | |- context [eval M start_last _ (_ :: ?e) (ELoop ?b)] =>
    assert (forall i n, 30 + i <= n ->
      ends (eval M start_last n (("i", VNat i) :: e) (ELoop b)) =
      omap (fun v => Some (VNat v)) (start_loop_last s i)) as L
  end.
  { induction i as [|i IH]; intros n Hn'; fuel n 30; cbn [start_loop_last]; unroll;
      (destruct (index s _) as [b| |] eqn:?; [|reflexivity|reflexivity]); run;
      destruct (beq b dash) eqn:B; unfold dash in B; rewrite B; run; try reflexivity.
    destruct i as [|i]; cbn [Nat.ltb Nat.leb]; run; [reflexivity|]. cbn [Nat.leb Nat.sub]. run. rewrite ?Nat.sub_0_r. apply IH. lia. }
  rewrite finish2, (L e) by lia. now destruct (start_loop_last s e).
Qed.

(** * 4. [VariantsIter::next_back] and [Variants::last] *)

Definition clean (it : viter) : Prop := v_offset it < v_end it -> at_end (v_data it) (v_end it).
Definition backs (Q : program) : Prop := forall M n it, 100 + v_end it <= n -> length (v_data it) + 4 <= M -> clean it ->
  call M Q n (VPath ["VariantsIter"; "next_back"]) [vviter it] =
  lift_step (voption (vtag VariantT)) vviter (VariantsIter_next_back it).
Ltac back starts :=
  intros M n [s o e] Hn HM C; unfold clean in C; cbn [v_data v_offset v_end] in *;
  fuel n 30; unfold VariantsIter_next_back, vviter; cbn [v_data v_offset v_end] in *;
  enter; run; unfold lift_step;
  destruct (o <? e) eqn:O; run; [|reflexivity]; apply Nat.ltb_lt in O; specialize (C O); destruct e as [|e]; [lia|];
  rewrite starts by (assumption || lia); unfold lift;
  destruct (find_segment_start s (S e)) as [x| |] eqn:F; [|reflexivity|reflexivity]; run;
  (destruct (slice s x (S e)); [|reflexivity|reflexivity]); run.
Lemma start_ge_backs : backs start_ge.
Proof. back start_ge_starts. destruct x as [|x]; cbn [Nat.ltb Nat.leb]; run; [reflexivity|]. cbn [Nat.leb]. run. reflexivity. Qed.
Lemma start_else_backs : backs start_else.
Proof. back start_else_starts. destruct x as [|x]; cbn [Nat.ltb Nat.leb]; run; [reflexivity|]. cbn [Nat.leb]. run. reflexivity. Qed.
Lemma start_one_backs : backs start_one.
Proof. back start_one_starts. destruct x as [|x]; cbn [Nat.ltb Nat.leb]; run; [reflexivity|]. cbn [Nat.leb]. run. reflexivity. Qed.
Lemma start_two_backs : backs start_two.
Proof. back start_two_starts. destruct x as [|x]; cbn [Nat.ltb Nat.leb]; run; [reflexivity|]. cbn [Nat.leb]. run. reflexivity. Qed.
Lemma start_last_backs : backs start_last.
Proof. back start_last_starts. destruct x as [|x]; cbn [Nat.ltb Nat.leb]; run; [reflexivity|]. cbn [Nat.leb]. run. reflexivity. Qed.
Lemma back_gt_backs : backs back_gt.
Proof.
  back back_gt_starts. destruct C as (_ & _ & N). rewrite F in N.
  destruct x as [|[|x]]; cbn [Nat.ltb Nat.leb]; run; [reflexivity|congruence|]. cbn [Nat.leb]. run. reflexivity.
Qed.

Definition lasts (Q : program) : Prop := forall M n s, 160 + length s <= n -> length s + 4 <= M -> clean (Variants_iter s) ->
  call M Q n (VPath ["Variants"; "last"]) [vtag VariantsT s] = lift (voption (vtag VariantT)) (Variants_last s).
Ltac lasting agrees backs :=
  intros M n s Hn HM C; fuel n 40; enter; run; rewrite agrees by reflexivity; rewrite Variants_iter_src by lia; run;
  rewrite backs by first [exact C|cbn; lia]; unfold lift_step, lift, Variants_last;
  destruct (VariantsIter_next_back (Variants_iter s)) as [[]| |]; run; reflexivity.
Lemma start_ge_lasts : lasts start_ge. Proof. lasting start_ge_agrees start_ge_backs. Qed.
Lemma start_else_lasts : lasts start_else. Proof. lasting start_else_agrees start_else_backs. Qed.
Lemma start_one_lasts : lasts start_one. Proof. lasting start_one_agrees start_one_backs. Qed.
Lemma start_two_lasts : lasts start_two. Proof. lasting start_two_agrees start_two_backs. Qed.
Lemma start_last_lasts : lasts start_last. Proof. lasting start_last_agrees start_last_backs. Qed.
Lemma back_gt_lasts : lasts back_gt. Proof. lasting back_gt_agrees back_gt_backs. Qed.

(** * 5. [Extensions::get] *)

(** The loop with another condition. *)
Fixpoint get_loop_while (more : nat -> bool) (fuel : nat) (s : bytes) (c : byte) (i : nat) (st : bool) : outcome (option bytes) :=
  if more i then
    match fuel with
    | O => OutOfFuel
    | S fuel' =>
      let! b := index s i in
      if st then
        let! hit := (if beq b c then let! b1 := index s (i + 1) in Ret (beq b1 dash) else Ret false) in
        if hit then
          let! e := find_list_end s (i + 2) (fun _ segment => Ret (1 <? length segment)) in
          omap Some (slice s i e)
        else get_loop_while more fuel' s c (i + 1) false
      else get_loop_while more fuel' s c (i + 1) (beq b dash)
    end
  else Ret None.

(** Texts that end in a subtag of two bytes or more. *)
Definition ends_long (s : bytes) : Prop :=
  s = [] \/ 2 <= length s /\ (exists b, index s (length s - 1) = Ret b /\ beq b dash = false) /\
    (exists b, index s (length s - 2) = Ret b /\ beq b dash = false).
Lemma index_in s i : i < length s -> exists b, index s i = Ret b.
Proof.
  intros L. unfold index. destruct (nth_error s i) as [b|] eqn:E; [eauto|]. apply nth_error_None in E. lia.
Qed.
Lemma get_le_same s c : ends_long s -> forall g i st, length s - i <= g ->
  (st = true -> i = 0 \/ index s (i - 1) = Ret dash) ->
  get_loop_while (fun i => i + 1 <=? length s) g s c i st = Extensions_get_loop g s c i st.
Proof.
  intros W. induction g as [|g IH]; intros i st G S; cbn [get_loop_while Extensions_get_loop].
  - destruct (Nat.leb_spec (i + 1) (length s)); [lia|]. destruct (Nat.ltb_spec (i + 1) (length s)); [lia|reflexivity].
  - destruct (Nat.ltb_spec (i + 1) (length s)) as [L|L].
    + destruct (Nat.leb_spec (i + 1) (length s)); [|lia]. destruct (index s i) as [b| |] eqn:E; cbn [bind]; [|reflexivity|reflexivity].
      destruct st.
      * apply bind_ext. intros [|] _; [reflexivity|]. apply IH; [lia|discriminate].
      * apply IH; [lia|]. intros B. right. replace (i + 1 - 1) with i by lia. rewrite E. f_equal. now apply beq_true.
    + destruct (Nat.leb_spec (i + 1) (length s)) as [K|K]; [|reflexivity].
      assert (i = length s - 1) by lia. destruct W as [->|(W & (b & E & B) & b2 & E2 & B2)]; [cbn in K; lia|].
      destruct st.
      { destruct (S eq_refl) as [->|X]; [lia|]. replace (i - 1) with (length s - 2) in X by lia. rewrite E2 in X. injection X as ->.
        now rewrite beq_refl in B2. }
      subst i. rewrite E. cbn [bind]. destruct g as [|g]; cbn [get_loop_while];
        (destruct (Nat.leb_spec (length s - 1 + 1 + 1) (length s)); [lia|reflexivity]).
Qed.
Lemma get_two_same s c : ends_long s -> forall g i st, length s - i <= g ->
  get_loop_while (fun i => i + 2 <? length s) g s c i st = Extensions_get_loop g s c i st.
Proof.
  intros W. induction g as [|g IH]; intros i st G; cbn [get_loop_while Extensions_get_loop].
  - destruct (Nat.ltb_spec (i + 2) (length s)); [lia|]. destruct (Nat.ltb_spec (i + 1) (length s)); [lia|reflexivity].
  - destruct (Nat.ltb_spec (i + 2) (length s)) as [L|L].
    + destruct (Nat.ltb_spec (i + 1) (length s)); [|lia]. destruct (index s i) as [b| |] eqn:E; cbn [bind]; [|reflexivity|reflexivity].
      destruct st.
      * apply bind_ext. intros [|] _; [reflexivity|]. apply IH. lia.
      * apply IH. lia.
    + destruct (Nat.ltb_spec (i + 1) (length s)) as [K|K]; [|reflexivity].
      destruct W as [->|(W & (b & E & B) & b2 & E2 & _)]; [cbn in K; lia|].
      replace i with (length s - 2) in * by lia. rewrite E2. cbn [bind]. replace (length s - 2 + 1) with (length s - 1) by lia.
      rewrite E. cbn [bind]. rewrite B.
      assert (X : forall st, Extensions_get_loop g s c (length s - 1) st = Ret None).
      { intros x. destruct g; cbn [Extensions_get_loop]; (destruct (Nat.ltb_spec (length s - 1 + 1) (length s)); [lia|reflexivity]). }
      rewrite !X. destruct st; [|reflexivity]. destruct (beq b2 c); reflexivity.
Qed.

Definition gets (Q : program) : Prop := forall M n s c, 210 + 2 * length s <= n -> length s + 4 <= M -> ends_long s ->
  call M Q n (VPath ["Extensions"; "get"]) [vtag ExtensionsT s; vsingleton c] =
  lift (voption (vtag ExtensionT)) (Extensions_get s c).
Lemma get_le_gets : gets get_le.
Proof.
  intros M n s c Hn HM W. fuel n 50. enter. run. unfold Extensions_get, lift. rewrite finish.
  rewrite <- (get_le_same s c W) by (lia || auto).
  match goal with
  | |- context [andthen (eval M get_le _ (_ :: _ :: ?e) (EWhile ?w ?b)) ?k] =>
    assert (forall g i st n, 140 + length s + g <= n -> length s - i <= g -> i <= length s ->
      ends (andthen (eval M get_le n (("starting", VBool st) :: ("i", VNat i) :: e) (EWhile w b)) k) =
      omap (fun v => Some (voption (vtag ExtensionT) v)) (get_loop_while (fun i => i + 1 <=? length s) g s c i st)) as L
  end.
  { induction g as [|g IH]; intros i st n Hn' Hg Hi; fuel n 40; cbn [get_loop_while]; unroll.
    - destruct (i + 1 <=? length s) eqn:E; [apply Nat.leb_le in E; lia|]. run. reflexivity.
    - destruct (i + 1 <=? length s) eqn:E; run; [|reflexivity].
      destruct st; run.
      + destruct (index s i) as [b| |] eqn:?; [|reflexivity|reflexivity]. run.
        destruct (beq b c); run.
        * destruct (index s (i + 1)) as [b'| |] eqn:?; [|reflexivity|reflexivity]. run.
          destruct (beq b' dash) eqn:B; unfold dash in B; rewrite B; run.
          -- rewrite get_le_agrees by reflexivity.
             erewrite (find_list_end_src _ s (i + 2) _ (fun _ segment => Ret (1 <? length segment)) 20).
             ++ unfold lift. destruct (find_list_end s (i + 2) _) as [x| |] eqn:?; run; [|reflexivity|reflexivity].
                destruct (slice s i x); [|reflexivity|reflexivity]. run. reflexivity.
             ++ intros k o sub Hk Hs. fuel k 20. enter. run. reflexivity.
             ++ reflexivity.
             ++ lia.
             ++ lia.
          -- apply IH; apply Nat.leb_le in E; lia.
        * apply IH; apply Nat.leb_le in E; lia.
      + destruct (index s i) as [b| |] eqn:?; [|reflexivity|reflexivity]. run.
        destruct (beq b dash) eqn:B; unfold dash in B; rewrite B; run; apply IH; apply Nat.leb_le in E; lia. }
  rewrite (L (length s)) by lia. now destruct (get_loop_while _ (length s) s c 0 true).
Qed.
Lemma get_two_gets : gets get_two.
Proof.
  intros M n s c Hn HM W. fuel n 50. enter. run. unfold Extensions_get, lift. rewrite finish.
  rewrite <- (get_two_same s c W) by lia.
  match goal with
  | |- context [andthen (eval M get_two _ (_ :: _ :: ?e) (EWhile ?w ?b)) ?k] =>
    assert (forall g i st n, 140 + length s + g <= n -> length s - i <= g -> i <= length s ->
      ends (andthen (eval M get_two n (("starting", VBool st) :: ("i", VNat i) :: e) (EWhile w b)) k) =
      omap (fun v => Some (voption (vtag ExtensionT) v)) (get_loop_while (fun i => i + 2 <? length s) g s c i st)) as L
  end.
  { induction g as [|g IH]; intros i st n Hn' Hg Hi; fuel n 40; cbn [get_loop_while]; unroll.
    - destruct (i + 2 <? length s) eqn:E; [apply Nat.ltb_lt in E; lia|]. run. reflexivity.
    - destruct (i + 2 <? length s) eqn:E; run; [|reflexivity].
      destruct st; run.
      + destruct (index s i) as [b| |] eqn:?; [|reflexivity|reflexivity]. run.
        destruct (beq b c); run.
        * destruct (index s (i + 1)) as [b'| |] eqn:?; [|reflexivity|reflexivity]. run.
          destruct (beq b' dash) eqn:B; unfold dash in B; rewrite B; run.
          -- rewrite get_two_agrees by reflexivity.
             erewrite (find_list_end_src _ s (i + 2) _ (fun _ segment => Ret (1 <? length segment)) 20).
             ++ unfold lift. destruct (find_list_end s (i + 2) _) as [x| |] eqn:?; run; [|reflexivity|reflexivity].
                destruct (slice s i x); [|reflexivity|reflexivity]. run. reflexivity.
             ++ intros k o sub Hk Hs. fuel k 20. enter. run. reflexivity.
             ++ reflexivity.
             ++ lia.
             ++ lia.
          -- apply IH; apply Nat.ltb_lt in E; lia.
        * apply IH; apply Nat.ltb_lt in E; lia.
      + destruct (index s i) as [b| |] eqn:?; [|reflexivity|reflexivity]. run.
        destruct (beq b dash) eqn:B; unfold dash in B; rewrite B; run; apply IH; apply Nat.ltb_lt in E; lia. }
  rewrite (L (length s)) by lia. now destruct (get_loop_while _ (length s) s c 0 true).
Qed.

Definition gets_iter (Q : program) : Prop := forall M n s c, 260 + 2 * length s <= n -> length s + 4 <= M -> ends_long s ->
  call M Q n (VPath ["Extensions"; "iter_extension"]) [vtag ExtensionsT s; vsingleton c] =
  lift (viter_of "ExtensionIter") (Extensions_iter_extension s c).
Lemma get_le_iter : gets_iter get_le.
Proof.
  intros M n s c Hn HM W. fuel n 30. enter. run. rewrite get_le_gets by (assumption || lia). unfold Extensions_iter_extension, lift.
  destruct (Extensions_get s c) as [[e|]| |]; run; reflexivity.
Qed.
Lemma get_two_iter : gets_iter get_two.
Proof.
  intros M n s c Hn HM W. fuel n 30. enter. run. rewrite get_two_gets by (assumption || lia). unfold Extensions_iter_extension, lift.
  destruct (Extensions_get s c) as [[e|]| |]; run; reflexivity.
Qed.

(** * 6. What clients have *)

Lemma dash_free_index p x t i : dash_free x = true -> i < length x -> exists b, index (p ++ x ++ t) (length p + i) = Ret b /\ beq b dash = false.
Proof.
  intros D L. unfold index. rewrite nth_error_app2 by lia. replace (length p + i - length p) with i by lia.
  rewrite nth_error_app1 by exact L. destruct (nth_error x i) as [b|] eqn:E; [|apply nth_error_None in E; lia].
  exists b. split; [reflexivity|]. apply nth_error_In in E. unfold dash_free in D.
  apply negb_true_iff. exact (proj1 (forallb_forall _ _) D b E).
Qed.
Lemma variant_long x : variant_ok x = true -> 4 <= length x.
Proof. unfold variant_ok. rewrite orb_true_iff, andb_true_iff, !sized_spec. lia. Qed.
Lemma at_end_intro q x t : variant_ok x = true -> q = [] \/ (exists q', q' <> [] /\ q = q' ++ [dash]) ->
  at_end (q ++ x ++ t) (length q + length x).
Proof.
  intros V W. pose proof (variant_long x V) as L. pose proof (seg_dash_free x (seg_variant x V)) as D.
  split; [lia|]. split.
  - replace (length q + length x - 1) with (length q + (length x - 1)) by lia. apply dash_free_index; [exact D|lia].
  - rewrite find_segment_start_spec.
    + intros [= X]. destruct W as [->|(q' & N & ->)]; [discriminate X|]. rewrite app_length in X. cbn in X.
      destruct q'; [now contradict N|cbn in X; lia].
    + exact D.
    + intros ->. cbn in L. lia.
    + destruct W as [->|(q' & _ & ->)]; eauto.
Qed.
Lemma at_variants_clean it l : at_variants it l -> forallb variant_ok l = true -> clean it.
Proof.
  intros (_ & _ & H) V O. destruct l as [|x l _] using rev_ind; [cbn in H; lia|].
  assert (exists p b, v_data it = p ++ join (l ++ [x]) ++ dtail b /\ (p = [] \/ exists p', p' <> [] /\ p = p' ++ [dash]) /\
    v_offset it = length p /\ v_end it = length p + length (join (l ++ [x]))) as (p & b & -> & W & _ & ->)
    by (destruct l; exact H). clear H O.
  rewrite forallb_app in V. cbn [forallb] in V. rewrite andb_true_r in V. apply andb_prop in V as [Vl V].
  destruct l as [|y l]; [cbn [app join]; now apply at_end_intro|].
  replace (join ((y :: l) ++ [x])) with (join (y :: l) ++ dash :: x) by (rewrite join_app by discriminate; cbn; now rewrite app_nil_r).
  replace (p ++ (join (y :: l) ++ dash :: x) ++ dtail b) with ((p ++ join (y :: l) ++ [dash]) ++ x ++ dtail b)
    by (rewrite <- !app_assoc; reflexivity).
  replace (length p + length (join (y :: l) ++ dash :: x)) with (length (p ++ join (y :: l) ++ [dash]) + length x)
    by (rewrite !app_length; cbn [length]; lia).
  apply at_end_intro; [exact V|]. right. exists (p ++ join (y :: l)). split; [|now rewrite <- app_assoc].
  cbn [forallb] in Vl. apply andb_prop in Vl as [Vy _]. apply variant_long in Vy.
  intros N. apply app_eq_nil in N as [_ N]. rewrite join_cons in N. apply app_eq_nil in N as [-> _]. cbn in Vy. lia.
Qed.
Lemma variants_clean s : accepted VariantsT s -> clean (Variants_iter s).
Proof. intros A. apply accepted_variants in A as (l & L & ->). exact (at_variants_clean _ l (Variants_iter_spec l L) L). Qed.
Lemma extensions_end_long s : accepted ExtensionsT s -> ends_long s.
Proof.
  intros A. apply accepted_extensions in A as (l & L & ->). destruct l as [|[c xs] l _] using rev_ind; [now left|right].
  unfold extensions_ok in L. rewrite forallb_app in L. cbn [forallb] in L. rewrite andb_true_r in L. apply andb_prop in L as [_ L].
  apply extension_ok_parts in L as (_ & N & X). destruct xs as [|x xs _] using rev_ind; [now contradict N|].
  rewrite forallb_app in X. cbn [forallb] in X. rewrite andb_true_r in X. apply andb_prop in X as [_ X].
  assert (exists q, extensions_text (l ++ [Ext c (xs ++ [x])]) = q ++ x) as (q & ->).
  { unfold extensions_text. rewrite flat_map_app. cbn [flat_map]. unfold extension_parts at 2. cbn [e_singleton e_subtags].
    rewrite app_nil_r.
    replace (flat_map extension_parts l ++ [c] :: xs ++ [x]) with ((flat_map extension_parts l ++ [c] :: xs) ++ [x])
      by (rewrite <- app_assoc; reflexivity).
    rewrite join_app by (destruct (flat_map extension_parts l); discriminate). cbn [dtail flat_map].
    exists (join (flat_map extension_parts l ++ [c] :: xs) ++ [dash]). now rewrite app_nil_r, <- app_assoc. }
  pose proof (seg_dash_free x (seg_ext_subtag x X)) as D. unfold ext_subtag_ok in X. apply sized_spec in X as [X _].
  rewrite app_length. split; [lia|].
  replace (q ++ x) with (q ++ x ++ []) by now rewrite app_nil_r.
  split;
    [replace (length q + length x - 1) with (length q + (length x - 1)) by lia
    |replace (length q + length x - 2) with (length q + (length x - 2)) by lia];
    (apply dash_free_index; [exact D|lia]).
Qed.
