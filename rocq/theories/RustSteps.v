(** How many steps running the program of RustProgram.v takes: the tools, the functions of utils.rs and the automata. *)
From Verif Require Import Base Validate Utils Normal NoOverflow Newtypes Spec Observe Accept Terminate.
From Verif Require Import RustSyntax RustEval RustCount RustProgram RustRefine RustGrammar RustValidate RustNormal.
Import Base.
Open Scope string_scope.
Open Scope nat_scope.
Open Scope list_scope.

Lemma keval_eq {M P} k m e x s :
  keval M P (S k + m) e x s = keval_step M P (keval M P (k + m)) (kcall M P (k + m)) e x (S s).
Proof. reflexivity. Qed.
Lemma kcall_eq {M P} k m f l s :
  kcall M P (S k + m) f l s = kcall_step P (keval M P (k + m)) (kcall M P (k + m)) f l (S s).
Proof. reflexivity. Qed.

(** The call ends in [r] and takes at most [B] steps. *)
Definition priced (M n : nat) (f : value) (args : list value) (r : outcome (value * list value)) (B : nat) : Prop :=
  call M crate n f args = r /\ steps M crate n f args <= B.
Lemma priced_intro M n f args r B :
  call M crate n f args = r -> (forall s, fst (kcall M crate n f args s) <= B + s) -> priced M n f args r B.
Proof. intros H C. split; [exact H|]. specialize (C 0). unfold steps. lia. Qed.
Lemma priced_use M n f args r B s :
  priced M n f args r B -> exists c, kcall M crate n f args s = (c, r) /\ c <= B + s.
Proof. intros [H C]. rewrite kcall_call, H. eexists. split; [reflexivity|]. lia. Qed.
Lemma priced_more M n f args r B B' : priced M n f args r B -> B <= B' -> priced M n f args r B'.
Proof. intros [H C] L. split; [exact H|lia]. Qed.

Arguments kbind {A B} !p f.
Arguments kandthen !r k.
Arguments kscoped e !r.
Arguments klooping !r k.

Ltac khead t :=
  lazymatch t with
  | kandthen ?r _ => khead r
  | kscoped _ ?r => khead r
  | klooping ?r _ => khead r
  | kbind ?r _ => khead r
  | (_, ?r) => head r
  | fst ?r => khead r
  | _ => t
  end.
Ltac ktidy :=
  cbn [keval_step kcall_step krun_fn keval_path keval_args keval_fields keval_arms keval_stmts kdone kstuck kpure kandthen
       kscoped klooping kbind kmethod1 charge done pure bind lookup update restore minus_len drop_len
       String.eqb Ascii.eqb Bool.eqb match_pat bind_pats app fst snd
       write_back keep fn_muts param_names bind_params fn_self fn_params fn_ret fn_body fn_name map last self_path
       assign binary cast make_range index_value field items method0 method_muts orb tl tuple1 some none okv errv
       rev negb andb default_of vtag type_of vsingleton vsingleton_result vrange range vrange_result voption lift].
Ltac ktidy_all := repeat (progress (ktidy; searches)).
Ltac kstep :=
  lazymatch goal with
  | |- ?l <= _ =>
    let h := khead l in
    lazymatch h with
    | keval _ _ _ _ (EWhile _ _) _ => fail
    | keval _ _ _ _ (ELoop _) _ => fail
    | keval ?M0 ?P (S ?k + ?m) ?e ?x ?s => rewrite (@keval_eq M0 P k m e x s)
    | kcall ?M0 ?P (S ?k + ?m) (VClosure ?e ?ps ?b) ?a ?s => rewrite (@kcall_eq M0 P k m (VClosure e ps b) a s)
    | kcall ?M0 ?P (S ?k + ?m) (VTy ?t) ?a ?s => rewrite (@kcall_eq M0 P k m (VTy t) a s)
    | kcall ?M0 ?P (S ?k + ?m) (VPath ?p) ?a ?s => builtin P p; rewrite (@kcall_eq M0 P k m (VPath p) a s)
    end
  end; ktidy_all.
Ltac krun := ktidy_all; repeat kstep.
Ltac kenter :=
  lazymatch goal with
  | |- ?l <= _ =>
    let h := khead l in
    lazymatch h with
    | kcall ?M0 ?P (S ?k + ?m) ?f ?a ?s => rewrite (@kcall_eq M0 P k m f a s)
    end
  end; ktidy_all.
Ltac kunroll :=
  lazymatch goal with
  | |- ?l <= _ =>
    let h := khead l in
    lazymatch h with
    | keval ?M0 ?P (S ?k + ?m) ?e ?x ?s => rewrite (@keval_eq M0 P k m e x s)
    end
  end; krun.
(** Uses what is known of the call at the head. *)
Ltac uses L :=
  lazymatch goal with
  | |- ?l <= _ =>
    let h := khead l in
    lazymatch h with
    | kcall ?M0 crate ?n ?f ?a ?s =>
      let H := fresh in
      let c := fresh "c" in
      let E := fresh in
      let B := fresh in
      eassert (priced M0 n f a _ _) as H by (eapply L; first [lia | eassumption | auto; lia | cbn; lia]);
      destruct (priced_use _ _ _ _ _ _ s H) as (c & E & B); rewrite E; clear E H
    end
  end.
Ltac over := krun; bounds; lia.

(** * 1. utils.rs *)

Lemma into_smallcase_steps {M} n c :
  20 <= n -> priced M n (VPath ["into_smallcase"]) [VByte c] (Ret (VByte (into_smallcase c), [])) 20.
Proof.
  intro Hn. apply priced_intro; [now apply into_smallcase_src|]. intro s. fuel n 20. kenter. krun.
  destruct (is_ascii_uppercase c) eqn:E; krun; [|over].
  change (N.of_nat 32) with 32%N. rewrite (smallcase_add c E). over.
Qed.

(** The cost of what is left to do, as a function of how the loop [t] ends. *)
Ltac rest t tac := pattern t; lazymatch goal with |- (fun z => @?Q z <= _) _ => tac Q end; cbv beta.
Ltac again IH := eapply Nat.le_trans; [apply IH; bounds; lia | bounds; lia].

Lemma case_insensitive_eq_steps {M} n a b :
  40 <= n ->
  priced M n (VPath ["case_insensitive_eq"]) [VBytes a; VBytes b] (lift VBool (case_insensitive_eq a b))
    (100 * length a + 100).
Proof.
  intro Hn. apply priced_intro; [now apply case_insensitive_eq_src|]. intro s0. fuel n 40. kenter. krun.
  destruct (length a =? length b) eqn:E; krun; [|over].
  match goal with
  | |- context [keval_for ?ev ?e ?p ?x (map VNat (seq 0 ?n)) ?t0] =>
    rest (keval_for ev e p x (map VNat (seq 0 n)) t0) ltac:(fun Q =>
      assert (forall k i s, Q (keval_for ev e p x (map VNat (seq i k)) s) <= 100 * k + 10 + s) as L)
  end.
  { cbv beta. induction k as [|k IH]; intros i s; cbn [seq map keval_for]; krun; [over|].
    destruct (index a i) as [x| |]; [|over|over]. krun. uses @into_smallcase_steps.
    krun. destruct (index b i) as [y| |]; [|over|over]. krun. uses @into_smallcase_steps. krun.
    destruct (negb (beq (into_smallcase x) (into_smallcase y))); krun; [over|]. again IH. }
  again L.
Qed.

Lemma case_insensitive_hash_steps {M} n s l :
  40 <= n ->
  priced M n (VPath ["case_insensitive_hash"]) [VBytes s; VSink l] (Ret (VUnit, [VSink (l ++ map into_smallcase s)]))
    (100 * length s + 100).
Proof.
  intro Hn. apply priced_intro; [now apply case_insensitive_hash_src|]. intro s0. fuel n 40. kenter. krun.
  match goal with
  | |- context [keval_for ?ev ?e ?p ?x (map VByte s) ?t0] =>
    rest (keval_for ev e p x (map VByte s) t0) ltac:(fun Q =>
    assert (forall s' l t, Q (keval_for ev [("bytes", VBytes s); ("hasher", VSink l); ("Self", VTy "")] p x (map VByte s') t)
      <= 100 * length s' + 10 + t) as L)
  end.
  { cbv beta. induction s' as [|b s' IH]; intros l' t; cbn [map keval_for length]; krun; [over|].
    uses @into_smallcase_steps. krun. again IH. }
  again L.
Qed.

Lemma case_insensitive_cmp_steps {M} n a b :
  60 + length a <= n -> length a + 4 <= M ->
  priced M n (VPath ["case_insensitive_cmp"]) [VBytes a; VBytes b] (lift ordering (case_insensitive_cmp a b))
    (200 * length a + 300).
Proof.
  intros Hn HM. apply priced_intro; [now apply case_insensitive_cmp_src|]. intro s0. fuel n 40. kenter. krun.
  match goal with
  | |- context [keval M crate ?n0 (?i0 :: ?e) (ELoop ?x) ?t0] =>
    rest (keval M crate n0 (i0 :: e) (ELoop x) t0) ltac:(fun Q =>
    assert (forall f i n s, 30 + f <= n -> i <= length a -> length a < i + f ->
      Q (keval M crate n (("i", VNat i) :: e) (ELoop x) s) <= 200 * f + s) as L)
  end.
  { cbv beta. clear -HM. induction f as [|f IH]; intros i n s Hn Hi Hf; [lia|]. fuel n 30. kunroll.
    destruct (length a <=? i) eqn:Ea; krun.
    - destruct (length b <=? i); over.
    - destruct (length b <=? i) eqn:Eb; krun; [over|]. apply Nat.leb_gt in Ea.
      destruct (index a i) as [x| |] eqn:Ia; [|over|over]. krun. uses @into_smallcase_steps. krun.
      destruct (index b i) as [y| |] eqn:Ib; [|over|over]. krun. uses @into_smallcase_steps. krun.
      destruct (byte_cmp (into_smallcase x) (into_smallcase y)); cbn [ordering]; krun; [|over|over].
      again IH. }
  eapply Nat.le_trans; [apply (L (S (length a))); lia|lia].
Qed.

(** * 2. The automata *)

Lemma karms_eval M P n e v arms s : snd (keval_arms (keval M P n) e v arms s) = eval_arms (eval M P n) e v arms.
Proof.
  destruct (counts_arms (keval M P n) (eval M P n) (proj1 (counts_run M P n)) v e arms) as [c H]. now rewrite H.
Qed.
Lemma return_false_steps {M} m e x s : is_return_false x = true -> fst (keval M crate (5 + m) e x s) = 2 + s.
Proof.
  destruct x; try discriminate. destruct e0 as [[]|]; try discriminate. destruct b; try discriminate. intros _.
  reflexivity.
Qed.
Lemma fst_kscoped e r : fst (kscoped e r) = fst r.
Proof. now destruct r as [? []]. Qed.

Lemma row_steps {M} m c e s : forall arms r, row arms = Some r ->
  fst (keval_arms (keval M crate (5 + m)) e (VChar c) arms s) <= 2 + s.
Proof.
  induction arms as [|[p x] arms IH]; intros r; [discriminate|].
  assert (p <> PWild -> (match x with
    | EInt n suffix => if String.eqb suffix "u32" then
      match ranges_of p, row arms with Some r, Some t => Some ((r, n) :: t) | _, _ => None end else None
    | _ => None end) = Some r -> fst (keval_arms (keval M crate (5 + m)) e (VChar c) ((p, x) :: arms) s) <= 2 + s) as G.
  { intros _. destruct x; try discriminate. destruct (String.eqb suffix "u32") eqn:E; try discriminate.
    destruct (ranges_of p) as [rs|] eqn:Er; try discriminate.
    destruct (row arms) as [t|]; try discriminate. intros _.
    cbn [keval_arms]. rewrite (ranges_of_match c p rs Er).
    destruct (in_ranges c rs); [|now apply (IH t)].
    rewrite keval_eq. cbn [keval_step kdone kscoped kbind fst]. lia. }
  destruct p; try (intro H; apply G; [discriminate|]; destruct x; exact H).
  cbn [row]. destruct (is_return_false x) eqn:E; [|discriminate]. intros _.
  cbn [keval_arms match_pat app]. rewrite fst_kscoped, return_false_steps by auto. lia.
Qed.
Lemma table_steps {M} m q c e s : lookup "token" e = Some (VChar c) -> forall arms t, table arms = Some t ->
  fst (keval_arms (keval M crate (7 + m)) e (VU32 q) arms s) <= 5 + s.
Proof.
  intros Hc. induction arms as [|[p x] arms IH]; intros t; [discriminate|].
  destruct p; try discriminate.
  - cbn [table]. destruct (is_return_false x) eqn:E; [|discriminate]. intros _.
    cbn [keval_arms match_pat app]. rewrite fst_kscoped, (return_false_steps (2 + m)) by auto. lia.
  - cbn [table]. destruct x; try discriminate. destruct x; try discriminate. destruct p as [|y [|]]; try discriminate.
    destruct (String.eqb y "token") eqn:E; [|discriminate]. apply String.eqb_eq in E. subst y.
    destruct (row arms0) as [r|] eqn:Er; try discriminate. destruct (table arms) as [t'|]; try discriminate.
    intros _. cbn [keval_arms match_pat].
    destruct (q =? n)%N; [|now apply (IH t')].
    rewrite fst_kscoped, keval_eq. cbn [keval_step app]. rewrite keval_eq. cbn [keval_step].
    unfold keval_path. rewrite Hc. cbn [kdone kandthen kbind fst snd].
    change (6 + m) with (5 + (1 + m)). pose proof (@row_steps M (1 + m) c e (S (S s)) _ _ Er). lia.
Qed.
Lemma push_body_steps {M} m x q c arms t s : table arms = Some t ->
  fst (keval M crate (15 + m) [("self", auto x q); ("token", VChar c); ("Self", VTy x)] (push_body arms) s) <= 20 + s.
Proof.
  intros H. unfold push_body, auto. krun.
  match goal with |- context [keval_arms (keval M crate (?k + m)) ?e ?v ?l ?t0] =>
    change (keval M crate (k + m)) with (keval M crate (7 + (5 + m)));
    pose proof (@table_ok M (5 + m) q c e eq_refl arms t H) as R;
    pose proof (@table_steps M (5 + m) q c e t0 eq_refl arms t H) as B;
    rewrite <- (karms_eval M crate (7 + (5 + m)) e v l t0) in R;
    destruct (keval_arms (keval M crate (7 + (5 + m))) e v l t0) as [c0 r0]
  end.
  cbn [fst snd] in *. subst r0. destruct (step_table t q c); over.
Qed.
Lemma accepting_steps {M} m x q f p l s :
  resolve crate [x; "is_accepting"] = TgFn x f ->
  f = Fn "is_accepting" ByRef [] (Some (TyPath ["bool"] [])) (accepting_body p) ->
  ints_of p = Some l ->
  fst (kcall M crate (16 + m) (VPath [x; "is_accepting"]) [auto x q] s) <= 10 + s.
Proof.
  intros H -> Hl. rewrite kcall_eq. cbn [kcall_step]. rewrite H. unfold krun_fn.
  cbn [param_names fn_self fn_params map fst app bind_params fn_body update String.eqb Ascii.eqb Bool.eqb].
  unfold accepting_body, auto. rewrite keval_eq. cbn [keval_step keval_stmts]. rewrite keval_eq. cbn [keval_step].
  rewrite keval_eq. cbn [keval_step]. rewrite keval_eq. ktidy. lia.
Qed.

(** What [push] and [is_accepting] of the type [x] cost in the first [k] states. *)
Definition automaton_steps (x : string) (A : automaton) (k : nat) : Prop :=
  (forall M n q c, 16 <= n -> (q < N.of_nat k)%N ->
    priced M n (VPath [x; "push"]) [auto x q; VChar c]
      (Ret match push A q c with Some q' => (VBool true, [auto x q']) | None => (VBool false, [auto x q]) end) 21) /\
  (forall M n q, 16 <= n -> (q < N.of_nat k)%N ->
    priced M n (VPath [x; "is_accepting"]) [auto x q] (Ret (VBool (is_accepting A q), [])) 10).

Lemma automaton_steps_intro x A k :
  automaton_src x A k ->
  resolve crate [x; "push"] = TgFn x (Fn "push" ByMut [("token", TyPath ["char"] [])] (Some (TyPath ["bool"] []))
    (push_body (push_arms (body_of x "push")))) ->
  resolve crate [x; "is_accepting"] = TgFn x (Fn "is_accepting" ByRef [] (Some (TyPath ["bool"] []))
    (accepting_body (accepting_pat (body_of x "is_accepting")))) ->
  (match table_of x, accepting_of x with Some _, Some _ => true | _, _ => false end) = true ->
  automaton_steps x A k.
Proof.
  intros (K0 & K1 & K2 & K3) Hp Ha H.
  destruct (table_of x) as [t|] eqn:Et; [|discriminate]. destruct (accepting_of x) as [l|] eqn:El; [|discriminate].
  split.
  - intros M n q c Hn Hq. apply priced_intro; [now apply K2|]. intro s. fuel n 16.
    rewrite kcall_eq. cbn [kcall_step]. rewrite Hp. unfold krun_fn.
    cbn [param_names fn_self fn_params map fst app bind_params fn_body update String.eqb Ascii.eqb Bool.eqb].
    pose proof (@push_body_steps M m x q c _ t (S s) Et) as B.
    destruct (keval _ _ _ _ _ _) as [c0 [[e []]| |]]; cbn [fst snd kbind kstuck] in *; lia.
  - intros M n q Hn Hq. apply priced_intro; [now apply K3|]. intro s. fuel n 16.
    apply (accepting_steps m x q _ _ l s Ha eq_refl El).
Qed.
Lemma automata_steps ty : automaton_steps (grammar_type ty) (automaton_of ty) (match ty with LangTagT => 300 | _ => 100 end).
Proof.
  destruct ty; (apply automaton_steps_intro;
  [ first [exact LanguageTag_src | exact Privateuse_src | exact PrivateuseSubtag_src | exact Langtag_src | exact Language_src
    | exact Primary_src | exact Extlang_src | exact ExtlangTag_src | exact Script_src | exact Region_src | exact Variant_src
    | exact Variants_src | exact Extension_src | exact ExtensionSubtag_src | exact Extensions_src]
  | vm_compute; reflexivity..]).
Qed.

(** * 3. [validate_bytes], [validate_str] and [new] *)

Lemma validate_steps {M} x A k n s :
  automaton_src x A k ->
  automaton_steps x A k ->
  String.eqb x "" = false ->
  resolve crate [x; "new"] = TgFn x new_fn ->
  resolve crate [x; "validate_bytes"] = TgFn x validate_fn ->
  (forall l, method_path crate (VStruct x l) "push" = Some [x; "push"]) ->
  (forall l, method_path crate (VStruct x l) "is_accepting" = Some [x; "is_accepting"]) ->
  muts crate (VPath [x; "push"]) = [true; false] ->
  muts crate (VPath [x; "new"]) = [] ->
  muts crate (VPath [x; "is_accepting"]) = [false] ->
  80 + length s <= n -> length s + 4 <= M ->
  priced M n (VPath [x; "validate_bytes"]) [VBytes s] (lift VBool (validate A s)) (80 * length s + 80).
Proof.
  intros HA (C2 & C3) Rx Rn Rv Mp Ma Up Un Ua Hn HM.
  apply priced_intro; [eapply validate_call; eassumption|]. intro s0. fuel n 50.
  destruct HA as (K0 & K1 & _ & _).
  unfold new_fn in Rn. unfold validate_fn in Rv.
  kenter. krun. kenter. krun.
  lazymatch goal with
  | |- context [keval M crate ?n0 (?a0 :: ?i0 :: ?e) (EWhile ?c ?b) ?t0] =>
    rest (keval M crate n0 (a0 :: i0 :: e) (EWhile c b) t0) ltac:(fun Q =>
    assert (forall f i q n t, 30 + f <= n -> length s - i <= f -> (q < N.of_nat k)%N ->
      Q (keval M crate n (("automaton", auto x q) :: ("i", VNat i) :: e) (EWhile c b) t) <= 80 * f + 40 + t) as L)
  end.
  { cbv beta. clear Hn Rv Rn. induction f as [|f IH]; intros i q n t Hn Hf Hq; fuel n 30; unfold auto; kunroll.
    - destruct (i <? length s) eqn:E; [apply Nat.ltb_lt in E; lia|]. krun. fold (auto x q). uses C3. over.
    - destruct (i <? length s) eqn:E; krun.
      2:{ fold (auto x q). uses C3. over. }
      destruct (decode_utf8_char s i) as [[c len]|] eqn:D; krun; [|over].
      fold (auto x q). uses C2. destruct (push A q c) as [q'|] eqn:P; krun; [|over].
      pose proof (decode_len _ _ _ _ D) as DL. krun. apply decode_advances in D. apply Nat.ltb_lt in E.
      specialize (K1 q c q' Hq P). again IH. }
  eapply Nat.le_trans; [apply (L (length s) 0 0%N); [lia|lia|exact K0]|lia].
Qed.

Theorem validate_bytes_steps {M} ty n s :
  80 + length s <= n -> length s + 4 <= M ->
  priced M n (VPath [grammar_type ty; "validate_bytes"]) [VBytes s] (lift VBool (validate (automaton_of ty) s))
    (80 * length s + 80).
Proof.
  intros Hn HM. eapply validate_steps with (k := match ty with LangTagT => 300 | _ => 100 end);
    [| exact (automata_steps ty) |..]; [destruct ty;
  first [exact LanguageTag_src | exact Privateuse_src | exact PrivateuseSubtag_src | exact Langtag_src | exact Language_src
    | exact Primary_src | exact Extlang_src | exact ExtlangTag_src | exact Script_src | exact Region_src | exact Variant_src
    | exact Variants_src | exact Extension_src | exact ExtensionSubtag_src | exact Extensions_src]
  |..]; first [exact Hn | exact HM | destruct ty; intros; vm_compute; reflexivity].
Qed.

Theorem validate_str_steps {M} ty n s :
  100 + length s <= n -> length s + 4 <= M ->
  priced M n (VPath [grammar_type ty; "validate_str"]) [VStr s] (lift VBool (validate (automaton_of ty) s))
    (80 * length s + 100).
Proof.
  intros Hn HM. apply priced_intro; [now apply validate_str_src|]. intro s0.
  pose proof (fun n => @validate_bytes_steps M ty n s) as V.
  fuel n 20. destruct ty; cbv [grammar_type automaton_name append] in *; kenter; krun; uses V;
    destruct (validate _ s); over.
Qed.

Theorem new_steps {M} ty n s :
  100 + length s <= n -> length s + 4 <= M ->
  priced M n (VPath [type_of ty; "new"]) [VStr s] (lift (vresult ty VStr) (new_of ty s)) (80 * length s + 100) /\
  priced M n (VPath [type_of ty; "new"]) [VBytes s] (lift (vresult ty VBytes) (new_of ty s)) (80 * length s + 100).
Proof.
  intros Hn HM. destruct (new_src ty n s Hn HM) as [R1 R2].
  split; (apply priced_intro; [assumption|]); intro s0; fuel n 10;
    rewrite kcall_eq; cbn [kcall_step]; rewrite new_resolves; fold (grammar_type ty); uses @validate_bytes_steps;
    destruct (validate _ s); over.
Qed.

(** * 4. Scanning *)

Lemma slice_size s a b x : slice s a b = Ret x -> length x = b - a /\ a <= b <= length s.
Proof.
  unfold slice. destruct (_ && _) eqn:E; [|discriminate]. rewrite !andb_true_iff, !Nat.leb_le in E. intros [= <-].
  rewrite firstn_length, skipn_length. lia.
Qed.
Lemma slice_from_size s a x : slice_from s a = Ret x -> length x = length s - a /\ a <= length s.
Proof.
  unfold slice_from. destruct (_ && _) eqn:E; [|discriminate]. rewrite !andb_true_iff, !Nat.leb_le in E. intros [= <-].
  rewrite skipn_length. lia.
Qed.

(** What [find_list_end] asks of the segments, together, is linear: they do not overlap. *)
Lemma find_list_end_steps {M} n s off fv f K :
  (forall k o sub, K <= k -> length sub <= length s ->
    priced M k fv [VNat o; VStr sub] (lift VBool (f o sub)) (100 * length sub + 300)) ->
  muts crate fv = [] ->
  60 + length s + K <= n -> length s + 4 <= M ->
  priced M n (VPath ["find_list_end"]) [VStr s; VNat off; fv] (lift VNat (find_list_end s off f)) (500 * length s + 500).
Proof.
  intros Hf Hm Hn HM.
  apply priced_intro; [apply (find_list_end_src n s off fv f K); auto; intros; apply Hf; auto|]. intro s0.
  fuel n 50. kenter. krun.
  match goal with
  | |- context [keval M crate ?n0 [?v1; ?v2; ?v3; ?v4; ?v5; ?v6; ?v7] (EWhile ?c ?b) ?t0] =>
    rest (keval M crate n0 [v1; v2; v3; v4; v5; v6; v7] (EWhile c b) t0) ltac:(fun Q =>
    assert (forall g i o e n t, 30 + g + K <= n -> length s - i <= g -> o <= i ->
      Q (keval M crate n [("end", VNat e); ("i", VNat i); ("bytes", VBytes s); ("string", VStr s);
        ("offset", VNat o); ("f", fv); ("Self", VTy "")] (EWhile c b) t)
      <= 500 * (length s - i) + 100 * (i - o) + 400 + t) as L)
  end.
  { cbv beta. induction g as [|g IH]; intros i o e n t Hn' Hg Ho; fuel n 30; kunroll.
    - destruct (i <? length s) eqn:E; [apply Nat.ltb_lt in E; lia|]. krun.
      destruct (slice_from s o) as [sub| |] eqn:S; [|over|over]. krun.
      apply slice_from_size in S as [S S']. uses Hf.
      destruct (f o sub) as [[]| |]; over.
    - destruct (i <? length s) eqn:E; krun.
      + destruct (index s i) as [b| |] eqn:?; [|over|over]. krun.
        destruct (beq b dash) eqn:B; unfold dash in B; rewrite B; krun.
        * destruct (slice s o i) as [sub| |] eqn:S; [|over|over]. krun.
          apply slice_size in S as [S S']. uses Hf. 
          destruct (f o sub) as [[]| |]; krun; [again IH|over|over|over].
        * again IH.
      + destruct (slice_from s o) as [sub| |] eqn:S; [|over|over]. krun.
        apply slice_from_size in S as [S S']. uses Hf.
        destruct (f o sub) as [[]| |]; over. }
  eapply Nat.le_trans; [apply (L (length s)); lia|lia].
Qed.
