(** C77: the tests of /repo/tests, the example of the documentation and the macro [langtag!], as text. *)
From Verif Require Import Base GrammarRs Validate Utils Grandfathered Normal LangTag Newtypes Derived Spec Observe.
From Verif Require Import Abnf AbnfText AbnfEquiv PropsFile PropsClient Accept GrammarArms.
From Verif Require Import RustText RustTestText RustSyntax RustEval RustProgram RustRefine RustGrammar RustValidate
  RustNormal RustAccess RustTags RustLib RustSays RustFuel RustTests RustMended PropsMended.
Import Base.
Open Scope string_scope.
Open Scope nat_scope.
Open Scope list_scope.

(** The source text, and the text patched as in C72. *)
Definition under_test (P : program) : Prop :=
  load files (Program [] [] [] [] []) = Some P \/ load mended_files (Program [] [] [] [] []) = Some P.
Lemma under_test_is P : under_test P -> P = crate \/ P = mended.
Proof. intros [H|H]; [rewrite crate_is_the_source in H|rewrite mended_is_the_text in H]; injection H as <-; auto. Qed.

(** [P] answers [r] to the call, from some fuel on. *)
Definition settles (M : nat) (P : program) (f : list string) (args : list value) (r : outcome (value * list value)) : Prop :=
  exists N, forall n, N <= n -> call M P n (VPath f) args = r.
Lemma settles_new M P s : under_test P -> 64 <= M -> length s + 4 <= M ->
  settles M P ["LangTag"; "new"] [VStr s] (lift (vresult LangTagT VStr) (new_of LangTagT s)).
Proof.
  intros U MM L. pose proof (says_runs _ _ _ (says_new_str LangTagT s)) as R.
  assert (RM : rooms [VStr s] <= M) by (cbn; lia).
  destruct U as [U|U].
  - destruct R as (Q & E & R). rewrite U in E. injection E as <-. exact (R M MM RM).
  - apply mended_keeps in R; [|reflexivity]. destruct R as (Q & E & R). rewrite U in E. injection E as <-. exact (R M MM RM).
Qed.

(** A test program passes: run with enough fuel, the function ends without a panic. *)
Definition passes (K : bytes -> bytes -> bool) (M : nat) (T P : program) (f : string) (v : value) : Prop :=
  exists N, forall m n, N <= m -> N <= n -> test_call K M T P (call M P m) n (VPath [f]) [] = Ret (v, []).
Definition fails (K : bytes -> bytes -> bool) (M : nat) (T P : program) (f : string) : Prop :=
  exists N, forall m n, N <= m -> N <= n -> test_call K M T P (call M P m) n (VPath [f]) [] = Panic.

(** * The macro *)

Lemma macro_ok K M P C n s v : P = crate \/ P = mended -> 10 <= n -> C (VPath ["LangTag"; "new"]) [VStr s] = Ret (okv v, []) ->
  test_call K M tests P C n (VPath ["langtag"]) [VStr s] = Ret (v, []).
Proof.
  intros PP N H. replace n with (10 + (n - 10)) by lia. generalize (n - 10). intros k. clear N.
  destruct PP as [-> | ->]; vm_compute; vm_compute in H; rewrite H; vm_compute; reflexivity.
Qed.
Lemma macro_err K M P C n s v : P = crate \/ P = mended -> 10 <= n -> C (VPath ["LangTag"; "new"]) [VStr s] = Ret (errv v, []) ->
  test_call K M tests P C n (VPath ["langtag"]) [VStr s] = Panic.
Proof.
  intros PP N H. replace n with (10 + (n - 10)) by lia. generalize (n - 10). intros k. clear N.
  destruct PP as [-> | ->]; vm_compute; vm_compute in H; rewrite H; vm_compute; reflexivity.
Qed.

(** [langtag!("s")] is the tag, if [s] is a Language-Tag of grammar.abnf, and does not compile (it panics while the constant
    is evaluated) otherwise.  So for the source and for the patched text. *)
Theorem C77_macro : forall K M T P s, test_program = Some T -> under_test P -> 64 <= M -> length s + 4 <= M ->
  exists N, forall m n, N <= m -> N <= n ->
    (derived_from grammar_abnf "Language-Tag" s ->
     test_call K M T P (call M P m) n (VPath ["langtag"]) [VStr s] = Ret (vtag LangTagT s, [])) /\
    (~ derived_from grammar_abnf "Language-Tag" s ->
     test_call K M T P (call M P m) n (VPath ["langtag"]) [VStr s] = Panic).
Proof.
  intros K M T P s TT U MM L. rewrite tests_are_the_text in TT. injection TT as <-.
  destruct (settles_new M P s U MM L) as (N & H). apply under_test_is in U.
  exists (N + 10). intros m n Hm Hn. specialize (H m ltac:(lia)).
  assert (D : derived_from grammar_abnf "Language-Tag" s <-> new_of LangTagT s = Ret (Ok s)) by exact (derived_accepted LangTagT s).
  unfold new_of in H, D. rewrite (new_run _ s (automaton_high LangTagT)) in H, D.
  destruct (accepts _ s); cbn [lift vresult bind] in H; split; intros X.
  - apply macro_ok; [exact U|lia|exact H].
  - exfalso. apply X. now apply D.
  - apply D in X. discriminate X.
  - eapply macro_err; [exact U|lia|exact H].
Qed.

(** * The tests *)

(** The functions that [#[test]] marks. *)
Fixpoint marked (ts : list token) : list string :=
  match ts with
  | TP "#" :: TP "[" :: TId "test" :: TP "]" :: r =>
    match r with
    | TId "pub" :: TId "fn" :: TId x :: _ | TId "fn" :: TId x :: _ => x :: marked r
    | _ => marked r
    end
  | _ :: r => marked r
  | [] => []
  end.
Definition file_tokens (s : bytes) : list token :=
  match lines_tokens (lines (joined false s)) with Some ts => ts | None => [] end.
Definition marked_tests : list string := flat_map (fun s => marked (file_tokens s)) test_files.

(** The string literals of the tests and of the example. *)
Fixpoint literals (ts : list token) : list bytes :=
  match ts with TStr s :: r => s :: literals r | _ :: r => literals r | [] => [] end.
Definition all_literals : list bytes :=
  Eval vm_compute in bs "fr-FR" :: flat_map (fun s => literals (file_tokens s)) test_files.

(** [LangTag::new] answered by the model, on these. *)
Definition answered (M : nat) (P : program) (m : nat) : caller := fun f args =>
  match f, args with
  | VPath ["LangTag"; "new"], [VStr s] =>
    if existsb (bytes_eqb s) all_literals then lift (vresult LangTagT VStr) (new_of LangTagT s) else OutOfFuel
  | _, _ => call M P m f args
  end.
Lemma bytes_eqb_eq a : forall b, bytes_eqb a b = true <-> a = b.
Proof.
  induction a as [|x a IH]; intros [|y b]; cbn; try (split; congruence).
  rewrite andb_true_iff, IH. unfold beq. split.
  - intros [E ->]. f_equal. apply Byte.byte_dec_bl. exact E.
  - intros E. injection E as -> ->. split; [apply Byte.byte_dec_lb; reflexivity|reflexivity].
Qed.
Lemma literals_short : forallb (fun s => length s <=? 200) all_literals = true.
Proof. vm_compute. reflexivity. Qed.
Lemma settled_all M P : under_test P -> 1000 <= M ->
  exists N, forall s, In s all_literals -> forall n, N <= n ->
    call M P n (VPath ["LangTag"; "new"]) [VStr s] = lift (vresult LangTagT VStr) (new_of LangTagT s).
Proof.
  intros U MM. pose proof literals_short as S. revert S. generalize all_literals. intros l.
  induction l as [|s l IH]; cbn [forallb]; intros S; [exists 0; intros ? []|].
  apply andb_prop in S as [S1 S2]. apply Nat.leb_le in S1. destruct (IH S2) as (N & H).
  destruct (settles_new M P s U ltac:(lia) ltac:(lia)) as (N' & H').
  exists (N + N'). intros x [<-|X] n L; [apply H'; lia|apply H; [exact X|lia]].
Qed.
Lemma answered_upto M P k : under_test P -> 1000 <= M ->
  exists N, forall m, N <= m -> forall f args, upto (answered 1000 P k f args) (call M P m f args).
Proof.
  intros U MM. destruct (settled_all M P U MM) as (N & H). exists (N + k). intros m L f args.
  assert (Z : upto (call 1000 P k f args) (call M P m f args)) by (apply upto_call; lia).
  unfold answered. revert Z. generalize (call 1000 P k f args). intros c Z.
  destruct f; try exact Z.
  repeat lazymatch goal with |- upto (match ?x with _ => _ end) _ => destruct x eqn:?; subst; try exact Z end; try apply upto_fuel.
  right. symmetry. match goal with X : existsb _ _ = true |- _ => apply existsb_exists in X as (x & I & E) end.
  apply bytes_eqb_eq in E. subst x. apply H; [exact I|lia].
Qed.

Lemma run_answered K M T P f r : under_test P -> 1000 <= M ->
  r <> OutOfFuel -> test_call K 1000 T P (answered 1000 P 300) 1000 (VPath [f]) [] = r ->
  exists N, forall m n, N <= m -> N <= n -> test_call K M T P (call M P m) n (VPath [f]) [] = r.
Proof.
  intros U MM NF H. destruct (answered_upto M P 300 U MM) as (N & A).
  exists (N + 1000). intros m n Lm Ln.
  destruct (proj2 (upto_test K K (fun _ _ => eq_refl) 1000 M MM T P (answered 1000 P 300) (call M P m) (A m ltac:(lia)) 1000 n ltac:(lia)) (VPath [f]) []) as [X|X];
    rewrite H in X; [contradiction|now rewrite X].
Qed.
Lemma marked_names : marked_tests =
  ["extensions_eq"; "extensions_iter"; "extensions_iter_extension"; "langtag_script_region"; "language_eq";
   "language_primary_eq"; "language_ext_eq"; "test_primary_language"; "test_unicode"; "test_cmp";
   "test_wellformed_tags"; "test_broken_tags"; "test_random_good_tags"; "test_random_bad_tags"; "privateuse_eq"; "privateuse_iter";
   "variants_eq"; "variants_iter"; "variants_first"; "variants_last"].
Proof. vm_compute. reflexivity. Qed.
Lemma all_pass K P : P = crate \/ P = mended ->
  Forall (fun f => test_call K 1000 tests P (answered 1000 P 300) 1000 (VPath [f]) [] = Ret (VUnit, [])) marked_tests.
Proof. rewrite marked_names. intros [-> | ->]; repeat (constructor; [vm_compute; reflexivity|]); constructor. Qed.

(** Every test of /repo/tests passes, on the source and on the patched text, whatever str_newtype generates for the
    comparison of a tag with a string, if it holds of equal texts. *)
Theorem C77_tests : forall K M T P f, test_program = Some T -> under_test P -> 1000 <= M ->
  In f marked_tests -> passes K M T P f VUnit.
Proof.
  intros K M T P f TT U MM I. rewrite tests_are_the_text in TT. injection TT as <-.
  pose proof (all_pass K P (under_test_is P U)) as A. rewrite Forall_forall in A.
  apply (run_answered K M tests P f (Ret (VUnit, []))); [exact U|exact MM|discriminate|exact (A f I)].
Qed.

(** * The example *)

(** The example of the documentation passes if and only if what str_newtype generates ignores case there. *)
Theorem C77_example : forall K M T P, example_program = Some T -> under_test P -> 1000 <= M ->
  (K (bs "fr-FR") (bs "Fr-fr") = true -> passes K M T P "main" (okv VUnit)) /\
  (K (bs "fr-FR") (bs "Fr-fr") = false -> fails K M T P "main").
Proof.
  intros K M T P TT U MM. rewrite example_is_the_text in TT. injection TT as <-.
  set (K' c := fun x y => if bytes_eqb x (bs "fr-FR") && bytes_eqb y (bs "Fr-fr") then c else K x y).
  assert (E : forall c, K (bs "fr-FR") (bs "Fr-fr") = c -> forall x y, K' c x y = K x y).
  { intros c <- x y. unfold K'. destruct (bytes_eqb x _) eqn:X; [|reflexivity]. destruct (bytes_eqb y _) eqn:Y; [|reflexivity].
    apply bytes_eqb_eq in X, Y. now subst. }
  assert (H : forall c : bool, test_call (K' c) 1000 example P (answered 1000 P 300) 1000 (VPath ["main"]) [] =
                               if c then Ret (okv VUnit, []) else Panic)
    by (intros []; destruct (under_test_is P U) as [-> | ->]; vm_compute; reflexivity).
  assert (G : forall c, K (bs "fr-FR") (bs "Fr-fr") = c ->
    test_call K 1000 example P (answered 1000 P 300) 1000 (VPath ["main"]) [] = if c then Ret (okv VUnit, []) else Panic).
  { intros c Hc. rewrite <- (H c).
    destruct (proj2 (upto_test (K' c) K (E c Hc) 1000 1000 (le_n _) example P _ _ (fun f args => upto_refl (answered 1000 P 300 f args))
      1000 1000 (le_n _)) (VPath ["main"]) []) as [X|X]; [|now symmetry]. rewrite (H c) in X. destruct c; discriminate X. }
  split; intros X; [apply (run_answered K M example P "main" (Ret (okv VUnit, [])) U MM)|
                    apply (run_answered K M example P "main" Panic U MM)]; try discriminate; exact (G _ X).
Qed.

(** * The interpreter *)

(** For every program: more fuel, or a larger machine, gives the same answer. *)
Theorem C77_fuel : forall P M M' n n' f args r, M <= M' -> n <= n' ->
  call M P n f args = r -> r <> OutOfFuel -> call M' P n' f args = r.
Proof.
  intros P M M' n n' f args r HM HN H NF. destruct (upto_call P M M' n n' f args HM HN) as [X|X]; [congruence|].
  now rewrite <- X.
Qed.

(** * Cases *)

(** The tests are twenty; tests that are wrong fail, and [?] returns an error; a constant with a wrong literal does not
    compile, that of tests/lib.rs:3 does. *)
Definition wrong_tests : bytes := text_bytes
"#[test]
pub fn wrong_ne() {
	let tag = NormalLangTag::new(""fr-abc-nice-bz-e-foo"").unwrap();
	assert_eq!(tag.script().unwrap(), ""nice""); // right
	assert_ne!(tag, tag);
}
fn wrong_str() { assert_eq!(LangTag::new(""fr-x-a"").unwrap().private_use().map(AsRef::as_ref), Some(""x-b"")); }
fn wrong_none() { assert_eq!(LangTag::new(""x-a"").unwrap().language(), Some(""x"")); }
fn wrong_some() { assert_eq!(None, LangTag::new(""fr"").unwrap().language()); }
fn wrong_case() { assert_eq!(LangTag::new(""fr"").unwrap(), LangTag::new(""fR"").unwrap()); assert!(LangTag::new(""de"").is_err()); }
fn wrong_tag() -> Result<(), InvalidLangTag<&'static str>> { assert!(LangTag::new(""a"").is_err()); LangTag::new(""d"")?; Ok(()) }
const _: &LangTag = langtag!(""fr-F"");
"%text.
Example C77_case :
  length marked_tests = 20 /\
  (forall K, exists T, loaded [macro_items "langtag" lib_rs; parse_test wrong_tests] = Some T /\
    (forall f, In f ["wrong_ne"; "wrong_str"; "wrong_none"; "wrong_some"; "wrong_case"] ->
     test_call K 1000 T crate (call 1000 crate 300) 300 (VPath [f]) [] = Panic) /\
    test_call K 1000 T crate (call 1000 crate 300) 300 (VPath ["wrong_tag"]) [] =
      Ret (errv (tuple1 "InvalidLangTag" (VStr (bs "d"))), []) /\
    exists x, consts T = [("", "_", x)] /\ test_eval K 1000 T crate (call 1000 crate 300) 300 [] x = Panic) /\
  exists x, consts tests = [("", "_", x)] /\
    forall K, test_eval K 1000 tests crate (call 1000 crate 300) 300 [] x = Ret ([], Done (vtag LangTagT (bs "fr-FR"))).
Proof.
  split; [now rewrite marked_names|]. split.
  - intros K. eexists. split; [vm_compute; reflexivity|]. split.
    + intros f I. cbn [In] in I. repeat (destruct I as [<-|I]; [vm_compute; reflexivity|]). destruct I.
    + split; [vm_compute; reflexivity|]. eexists. split; [reflexivity|vm_compute; reflexivity].
  - eexists. split; [reflexivity|]. intros K. vm_compute. reflexivity.
Qed.

Print Assumptions C77_macro.
Print Assumptions C77_tests.
Print Assumptions C77_example.
Print Assumptions C77_fuel.
