(** Property C71: every function of the text ends, on every machine, without overflow. *)
From Verif Require Import Base GrammarRs Validate Utils Grandfathered Normal LangTag Newtypes Derived Spec Observe
  Case Order Iter Kind Terminate Samples.
From Verif Require Import RustText RustSyntax RustEval RustProgram RustRefine RustGrammar RustValidate RustNormal RustAccess
  RustTags RustLib RustSays PropsSource.

Lemma t_lift {A} (f : A -> value) x : terminates x -> terminates (lift f x).
Proof. intros H. apply t_bind; [exact H|]. intros. apply t_ret. Qed.
Lemma t_lift_step {A B} (f : A -> value) (g : B -> value) x : terminates x -> terminates (lift_step f g x).
Proof. intros H. apply t_bind; [exact H|]. intros. apply t_ret. Qed.

(** * C71 *)

(** What the model says is a value or a panic, except that [find_list_end] calls the closure that it is given. *)
Theorem C71_ends : forall f args r, says f args r -> f <> ["find_list_end"] -> r <> OutOfFuel.
Proof.
  intros f args r H F. change (terminates r).
  assert (Z : forall ty s, terminates (new_of ty s)).
  { intros ty s. unfold new_of, new. apply t_bind; [apply t_validate_with, decode_advances|]. intros [|]; apply t_ret. }
  destruct H; try (now destruct F); try exact (t_ret _); first [apply t_lift|apply t_lift_step]; auto with term;
    try (now apply t_langtag); try apply t_language_end; try apply t_script_range; try apply t_region_range;
    try apply t_variants_range; try apply t_extensions_range; try apply t_segment_next; try apply t_extensions_next;
    try apply t_variants_next; try apply t_variants_next_back; try apply t_get;
    try (apply t_omap; first [apply t_variants_next|apply t_variants_next_back]);
    try (apply t_validate_with, decode_advances).
  - rewrite case_insensitive_eq_spec. apply t_ret.
  - rewrite case_insensitive_cmp_spec. apply t_ret.
  - destruct ty; change (terminates (case_insensitive_eq a b)); rewrite case_insensitive_eq_spec; apply t_ret.
  - destruct ty; change (terminates (omap Some (case_insensitive_cmp a b))); rewrite case_insensitive_cmp_spec; apply t_ret.
  - destruct ty; change (terminates (case_insensitive_cmp a b)); rewrite case_insensitive_cmp_spec; apply t_ret.
  - apply t_omap, t_as_normal.
  - apply t_omap, t_omap, t_new.
  - apply t_omap, t_omap, t_grandfathered.
  - apply t_omap, t_new.
  - apply t_omap, t_grandfathered.
  - destruct t; cbn; auto with term.
  - pose proof (t_grandfathered s) as G. unfold Grandfathered_new in G. destruct (Grandfathered_try_from s); [discriminate..|].
    now destruct G.
  - apply t_bind; [apply t_variants_range|]. intros. apply t_ret.
  - apply t_bind; [apply t_singleton|]. intros. apply t_ret.
  - apply t_index.
  - apply t_bind; [apply t_get|]. intros. apply t_ret.
Qed.
(** [find_list_end] ends if the closure does. *)
Theorem C71_closure : forall s off f, (forall o x, f o x <> OutOfFuel) -> find_list_end s off f <> OutOfFuel.
Proof. exact t_find_list_end. Qed.
(** So the text of every function, run with enough fuel, gives a value or panics; no addition or subtraction overflows
    on a machine where each text in the arguments has at most [usize::MAX - 4] bytes and each number is at most
    [usize::MAX].  The result is the same on all these machines. *)
Theorem C71_source : exists P, load files (Program [] [] [] [] []) = Some P /\
  forall f args r, says f args r -> f <> ["find_list_end"] ->
  forall M, 64 <= M -> rooms args <= M -> exists N, forall n, N <= n ->
    call M P n (VPath f) args = r /\ r <> OutOfFuel.
Proof.
  exists crate. split; [exact crate_is_the_source|]. intros f args r S F M L R.
  destruct (runs_inv _ _ _ (says_runs _ _ _ S) M L R) as (N & X). exists N. intros n K. split; [now apply X|].
  exact (C71_ends f args r S F).
Qed.
Print Assumptions C71_ends.
Print Assumptions C71_closure.
Print Assumptions C71_source.
(** On a machine that is too small, the run stops at an addition that overflows. *)
Example C71_case :
  rooms [vtag NormalLangTagT (bs "sr-Latn-RS")] = 14 /\
  call 14 crate 400 (VPath ["NormalLangTag"; "region"]) [vtag NormalLangTagT (bs "sr-Latn-RS")] =
    Ret (some (vtag RegionT (bs "RS")), []) /\
  call 9 crate 400 (VPath ["NormalLangTag"; "region"]) [vtag NormalLangTagT (bs "sr-Latn-RS")] = OutOfFuel /\
  call 9 crate 400 (VPath ["find_segment_end"]) [VStr (bs "sr-Latn-RS"); VNat 8] = OutOfFuel /\
  call 10 crate 400 (VPath ["find_segment_end"]) [VStr (bs "sr-Latn-RS"); VNat 8] = Ret (VNat 10, []).
Proof. repeat split; vm_compute; reflexivity. Qed.
