(** Running the program of RustProgram.v symbolically: the tools, and the functions of utils.rs. *)
From Verif Require Import Base Validate Utils Normal NoOverflow RustSyntax RustEval RustProgram.
Open Scope string_scope.
Open Scope nat_scope.
Open Scope list_scope.

Lemma eval_eq {M P} k m e x :
  eval M P (S k + m) e x = eval_step M P (eval M P (k + m)) (call M P (k + m)) e x.
Proof. reflexivity. Qed.
Lemma call_eq {M P} k m f l :
  call M P (S k + m) f l = call_step P (eval M P (k + m)) (call M P (k + m)) f l.
Proof. reflexivity. Qed.
Lemma fit_ok M n : n <= M -> fit M n = Ret (VNat n).
Proof. intros H. unfold fit. now rewrite (proj2 (Nat.leb_le n M) H). Qed.

Arguments bind {A B} !x f.
Arguments andthen !r k.
Arguments scoped e !r.
Arguments looping !r k.
Arguments pure e !r.
Arguments omap {A B} f !x.

(** The function called, if it is neither a function of the program nor unknown. *)
Ltac head t :=
  lazymatch t with
  | andthen ?r _ => head r
  | scoped _ ?r => head r
  | looping ?r _ => head r
  | pure _ ?r => head r
  | bind ?r _ => head r
  | omap _ ?r => head r
  | _ => t
  end.
Ltac tidy :=
  cbn [eval_step call_step run_fn eval_path eval_args eval_fields eval_arms eval_stmts done pure andthen scoped looping
       bind omap lookup update restore minus_len drop_len String.eqb Ascii.eqb Bool.eqb match_pat bind_pats app fst snd
       write_back keep fn_muts param_names bind_params fn_self fn_params fn_ret fn_body fn_name map last self_path
       assign binary cast make_range index_value field items method0 method1 method_muts orb tl tuple1 some none okv errv
       rev negb andb default_of].
Ltac closed p := tryif (match p with context [?v] => is_var v end) then fail else idtac.
(** What the tests made so far say of the indices. *)
Ltac bounds :=
  repeat match goal with
  | H : (_ <? _) = true |- _ => apply Nat.ltb_lt in H
  | H : (_ <? _) = false |- _ => apply Nat.ltb_ge in H
  | H : (_ <=? _) = true |- _ => apply Nat.leb_le in H
  | H : (_ <=? _) = false |- _ => apply Nat.leb_gt in H
  | H : index ?s _ = Ret _ |- _ => apply index_lt in H
  | H : slice ?s _ _ = Ret _ |- _ => apply slice_length in H
  | H : slice_from ?s _ = Ret _ |- _ => apply slice_from_length in H
  | H : find_list_end _ _ _ = Ret _ |- _ => apply find_list_end_le in H
  | H : language_end _ = Ret _ |- _ => apply language_end_le in H
  | H : script_range _ = Ret _ |- _ => apply script_range_le in H; cbn [end_of snd] in H
  | H : region_range _ = Ret _ |- _ => apply region_range_le in H; cbn [end_of snd] in H
  | H : variants_range _ = Ret _ |- _ => apply variants_range_le in H; cbn [snd] in H
  end.
(** Evaluates the closed applications of the searches in the program; uses what is known of the others. *)
Ltac searches :=
  repeat match goal with
  | H : resolve ?P ?p = _ |- context [resolve ?P ?p] => rewrite H
  | H : muts ?P ?p = _ |- context [muts ?P ?p] => rewrite H
  | H : forall l, method_path ?P (VStruct ?t l) ?m = _ |- context [method_path ?P (VStruct ?t _) ?m] => rewrite H
  | H : String.eqb ?x ?y = _ |- context [String.eqb ?x ?y] => rewrite H
  | |- context [resolve ?P ?p] =>
    closed p; let r := eval vm_compute in (resolve P p) in change (resolve P p) with r
  | |- context [muts ?P ?p] =>
    closed p; let r := eval vm_compute in (muts P p) in change (muts P p) with r
  | |- context [method_path ?P ?v ?m] =>
    lazymatch v with VStruct ?t _ => closed t | _ => idtac end;
    let r := eval vm_compute in (method_path P v m) in change (method_path P v m) with r
  | |- context [fit ?M ?n] => rewrite (fit_ok M n) by (bounds; lia)
  | |- context [N.to_nat ?c] => is_ground c; let r := eval vm_compute in (N.to_nat c) in change (N.to_nat c) with r
  end.
Ltac tidy_all := repeat (progress (tidy; searches)).
Ltac builtin P p :=
  closed p;
  let r := eval vm_compute in (resolve P p) in
  lazymatch r with TgFn _ _ => fail | _ => idtac end.
(** One step at the head of the left-hand side; loops stay. *)
Ltac step :=
  lazymatch goal with
  | |- ?l = _ =>
    let h := head l in
    lazymatch h with
    | eval _ _ _ _ (EWhile _ _) => fail
    | eval _ _ _ _ (ELoop _) => fail
    | eval ?M0 ?P (S ?k + ?m) ?e ?x => rewrite (@eval_eq M0 P k m e x)
    | call ?M0 ?P (S ?k + ?m) (VClosure ?e ?ps ?b) ?a => rewrite (@call_eq M0 P k m (VClosure e ps b) a)
    | call ?M0 ?P (S ?k + ?m) (VTy ?t) ?a => rewrite (@call_eq M0 P k m (VTy t) a)
    | call ?M0 ?P (S ?k + ?m) (VPath ?p) ?a => builtin P p; rewrite (@call_eq M0 P k m (VPath p) a)
    end
  end; tidy_all.
Ltac run := tidy_all; repeat step.
(** Enters a function of the program. *)
Ltac enter :=
  lazymatch goal with
  | |- ?l = _ =>
    let h := head l in
    lazymatch h with
    | call ?M0 ?P (S ?k + ?m) ?f ?a => rewrite (@call_eq M0 P k m f a)
    end
  end; tidy_all.
(** Runs a loop once. *)
Ltac unroll :=
  lazymatch goal with
  | |- ?l = _ =>
    let h := head l in
    lazymatch h with
    | eval ?M0 ?P (S ?k + ?m) ?e ?x => rewrite (@eval_eq M0 P k m e x)
    end
  end; run.
(** Names the fuel [n], at least [k]. *)
Ltac fuel n k :=
  let m := fresh "m" in
  let H := fresh in
  assert (exists m, n = k + m) as [m H] by (exists (n - k); lia); subst n.

(** Only how the body ends matters. *)
Lemma only_flow {A} e (r : res) (G : flow -> outcome A) :
  (let! x := scoped e r in G (snd x)) = let! f := omap snd r in G f.
Proof. now destruct r. Qed.

(** * utils.rs *)

Lemma smallcase_add c : is_ascii_uppercase c = true -> u8_of (code c + 32) = Some (u8_add c 32).
Proof. destruct c; vm_compute; intro; try discriminate; reflexivity. Qed.

Lemma into_smallcase_src {M} n c :
  20 <= n -> call M crate n (VPath ["into_smallcase"]) [VByte c] = Ret (VByte (into_smallcase c), []).
Proof.
  intro Hn. fuel n 20. enter. run. unfold into_smallcase.
  destruct (is_ascii_uppercase c) eqn:E; run; [|reflexivity].
  change (N.of_nat 32) with 32%N. rewrite (smallcase_add c E). reflexivity.
Qed.

Definition lift {A} (f : A -> value) (x : outcome A) : outcome (value * list value) :=
  let! a := x in Ret (f a, []).

Lemma case_insensitive_eq_src {M} n a b :
  40 <= n ->
  call M crate n (VPath ["case_insensitive_eq"]) [VBytes a; VBytes b] = lift VBool (case_insensitive_eq a b).
Proof.
  intro Hn. fuel n 40. enter. run. unfold case_insensitive_eq, lift.
  destruct (length a =? length b) eqn:E; run; [|reflexivity].
  match goal with
  | |- context [eval_for ?ev ?e ?p ?x (map VNat (seq 0 _))] =>
    assert (forall k i, eval_for ev e p x (map VNat (seq i k)) =
      let! r := case_insensitive_eq_loop a b k i in Ret (e, if r then Done VUnit else Returned (VBool false))) as L
  end.
  { induction k as [|k IH]; intro i; [reflexivity|].
    cbn [seq map eval_for case_insensitive_eq_loop]. run.
    destruct (index a i) as [x| |]; [|reflexivity|reflexivity]. run.
    rewrite into_smallcase_src by lia. run.
    destruct (index b i) as [y| |]; [|reflexivity|reflexivity]. run.
    rewrite into_smallcase_src by lia. run.
    destruct (negb (beq (into_smallcase x) (into_smallcase y))); run; [reflexivity|].
    rewrite IH. now replace (S i) with (i + 1) by lia. }
  rewrite L, Nat.sub_0_r.
  destruct (case_insensitive_eq_loop a b (length a) 0) as [[]| |]; run; reflexivity.
Qed.

(** The hasher gets these bytes, in this order. *)
Lemma case_insensitive_hash_src {M} n s l :
  40 <= n ->
  call M crate n (VPath ["case_insensitive_hash"]) [VBytes s; VSink l] =
  Ret (VUnit, [VSink (l ++ map into_smallcase s)]).
Proof.
  intro Hn. fuel n 40. enter. run.
  match goal with
  | |- context [eval_for ?ev ?e ?p ?x (map VByte s)] =>
    assert (forall s' l, eval_for ev [("bytes", VBytes s); ("hasher", VSink l); ("Self", VTy "")] p x (map VByte s') =
      Ret ([("bytes", VBytes s); ("hasher", VSink (l ++ map into_smallcase s')); ("Self", VTy "")], Done VUnit)) as L
  end.
  { induction s' as [|b s' IH]; intro l'; [cbn; now rewrite app_nil_r|].
    cbn [map eval_for]. run. rewrite into_smallcase_src by lia. run.
    rewrite IH, <- app_assoc. reflexivity. }
  rewrite L. run. reflexivity.
Qed.

Lemma case_insensitive_cmp_src {M} n a b :
  60 + length a <= n -> length a + 4 <= M ->
  call M crate n (VPath ["case_insensitive_cmp"]) [VBytes a; VBytes b] = lift ordering (case_insensitive_cmp a b).
Proof.
  intros Hn HM. fuel n 40. enter. run. unfold case_insensitive_cmp, lift.
  match goal with
  | |- context [eval M crate _ (_ :: ?e) (ELoop ?x)] =>
    assert (forall f i n, 30 + f <= n -> i <= length a -> length a < i + f ->
      omap snd (eval M crate n (("i", VNat i) :: e) (ELoop x)) =
      let! r := case_insensitive_cmp_loop f a b i in Ret (Returned (ordering r))) as L
  end.
  { clear -HM. induction f as [|f IH]; intros i n Hn Hi Hf; [lia|]. fuel n 30.
    cbn [case_insensitive_cmp_loop]. unroll.
    destruct (length a <=? i) eqn:Ea; run.
    - destruct (length b <=? i); run; reflexivity.
    - destruct (length b <=? i) eqn:Eb; run; [reflexivity|]. apply Nat.leb_gt in Ea.
      destruct (index a i) as [x| |] eqn:Ia; [|reflexivity|reflexivity]. run.
      rewrite into_smallcase_src by lia. run.
      destruct (index b i) as [y| |] eqn:Ib; [|reflexivity|reflexivity]. run.
      rewrite into_smallcase_src by lia. run.
      destruct (byte_cmp (into_smallcase x) (into_smallcase y)); cbn [ordering]; run; try reflexivity.
      apply IH; lia. }
  rewrite (only_flow _ _ (fun f => match f with Done v | Returned v => Ret (v, []) | Broke _ => OutOfFuel end)).
  rewrite (L (S (length a))) by lia. now destruct (case_insensitive_cmp_loop _ a b 0).
Qed.
