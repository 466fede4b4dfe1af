(** The functions of normal/mod.rs, as the source text gives them. *)
From Verif Require Import Base Validate Utils Normal NoOverflow Newtypes RustSyntax RustEval RustProgram RustRefine RustGrammar RustValidate.
Open Scope string_scope.
Open Scope nat_scope.
Open Scope list_scope.

Definition vsingleton (b : byte) : value := tuple1 "Singleton" (VByte b).
(** [Result<Singleton, InvalidSingleton<..>>]. *)
Definition vsingleton_result {E} (w : E -> value) (r : result byte E) : value :=
  match r with
  | Ok b => okv (vsingleton b)
  | Err e => errv (tuple1 "InvalidSingleton" (w e))
  end.
(** [Result<Range<usize>, usize>] *)
Definition vrange (r : nat * nat) : value := range (fst r) (snd r).
Definition vrange_result (r : range_result) : value :=
  match r with Ok x => okv (vrange x) | Err i => errv (VNat i) end.
(** [Option<..>] *)
Definition voption {A} (w : A -> value) (o : option A) : value := match o with Some a => some (w a) | None => none end.

Ltac tidy ::=
  cbn [eval_step call_step run_fn eval_path eval_args eval_fields eval_arms eval_stmts done pure andthen scoped looping
       bind omap lookup update restore minus_len drop_len String.eqb Ascii.eqb Bool.eqb match_pat bind_pats app fst snd
       write_back keep fn_muts param_names bind_params fn_self fn_params fn_ret fn_body fn_name map last self_path
       assign binary cast make_range index_value field items method0 method1 method_muts orb tl tuple1 some none okv errv
       rev negb andb default_of vtag type_of vsingleton vsingleton_result
       vrange range vrange_result voption].

(** * 1. Scanning *)

(** The value that a function body ends with. *)
Definition fval (f : flow) : option value := match f with Done v | Returned v => Some v | Broke _ => None end.
Definition ends (r : res) : outcome (option value) := omap (fun x => fval (snd x)) r.
Lemma finish e r (l : list value) :
  (let! x := scoped e r in match snd x with Done v | Returned v => Ret (v, l) | Broke _ => OutOfFuel end) =
  let! v := ends r in match v with Some v => Ret (v, l) | None => OutOfFuel end.
Proof. destruct r as [[e' []]| |]; reflexivity. Qed.
Lemma finish2 e e' r (l : list value) :
  (let! x := scoped e (scoped e' r) in match snd x with Done v | Returned v => Ret (v, l) | Broke _ => OutOfFuel end) =
  let! v := ends r in match v with Some v => Ret (v, l) | None => OutOfFuel end.
Proof. destruct r as [[? []]| |]; reflexivity. Qed.
Arguments ends !r /.

Ltac head t ::=
  lazymatch t with
  | andthen ?r _ => head r
  | scoped _ ?r => head r
  | looping ?r _ => head r
  | pure _ ?r => head r
  | bind ?r _ => head r
  | omap _ ?r => head r
  | ends ?r => head r
  | _ => t
  end.

Lemma find_list_end_src {M} n s off fv f K :
  (forall k o sub, K <= k -> length sub <= length s -> call M crate k fv [VNat o; VStr sub] = lift VBool (f o sub)) ->
  muts crate fv = [] ->
  60 + length s + K <= n -> length s + 4 <= M ->
  call M crate n (VPath ["find_list_end"]) [VStr s; VNat off; fv] = lift VNat (find_list_end s off f).
Proof.
  intros Hf Hm Hn HM. fuel n 50. enter. run. unfold find_list_end, lift. rewrite finish.
  match goal with
  | |- context [andthen (eval M crate _ (_ :: _ :: ("bytes", _) :: _) (EWhile ?c ?b)) ?k] =>
    assert (forall g i o e n, 30 + g + K <= n -> length s - i <= g ->
      ends (andthen (eval M crate n [("end", VNat e); ("i", VNat i); ("bytes", VBytes s); ("string", VStr s);
        ("offset", VNat o); ("f", fv); ("Self", VTy "")] (EWhile c b)) k) =
      omap (fun v => Some (VNat v)) (find_list_end_loop g s f i o e)) as L
  end.
  { induction g as [|g IH]; intros i o e n Hn' Hg; fuel n 30; cbn [find_list_end_loop].
    - destruct (i <? length s) eqn:E; [apply Nat.ltb_lt in E; lia|]. unroll. rewrite E. run.
      destruct (slice_from s o) as [sub| |] eqn:S; [|reflexivity|reflexivity]. run.
      apply slice_from_length in S as [S _]. rewrite Hf by (auto; lia). unfold lift.
      destruct (f o sub) as [[]| |]; run; reflexivity.
    - unroll. destruct (i <? length s) eqn:E; run.
      + destruct (index s i) as [b| |] eqn:?; [|reflexivity|reflexivity]. run.
        destruct (beq b dash) eqn:B; unfold dash in B; rewrite B; run.
        * destruct (slice s o i) as [sub| |] eqn:S; [|reflexivity|reflexivity]. run.
          apply slice_length in S as [S _]. rewrite Hf by (auto; lia). unfold lift.
          destruct (f o sub) as [[]| |]; run; try reflexivity. apply IH; apply Nat.ltb_lt in E; lia.
        * apply IH; apply Nat.ltb_lt in E; lia.
      + destruct (slice_from s o) as [sub| |] eqn:S; [|reflexivity|reflexivity]. run.
        apply slice_from_length in S as [S _]. rewrite Hf by (auto; lia). unfold lift.
        destruct (f o sub) as [[]| |]; run; reflexivity. }
  rewrite (L (length s)) by lia. now destruct (find_list_end_loop (length s) s f off off off).
Qed.

Lemma find_segment_end_src {M} n s off :
  60 + length s <= n -> length s + 4 <= M ->
  call M crate n (VPath ["find_segment_end"]) [VStr s; VNat off] = lift VNat (find_segment_end s off).
Proof.
  intros Hn HM. fuel n 50. enter. run. unfold find_segment_end, lift. rewrite finish.
  match goal with
  | |- context [andthen (eval M crate _ (_ :: ?e) (EWhile ?c ?b)) ?k] =>
    assert (forall g i n, 30 + g <= n -> length s - i <= g ->
      ends (andthen (eval M crate n (("i", VNat i) :: e) (EWhile c b)) k) =
      omap (fun v => Some (VNat v)) (find_segment_end_loop g s i)) as L
  end.
  { induction g as [|g IH]; intros i n Hn' Hg; fuel n 30; cbn [find_segment_end_loop]; unroll.
    - destruct (i <? length s) eqn:E; [apply Nat.ltb_lt in E; lia|]. run. reflexivity.
    - destruct (i <? length s) eqn:E; run; [|reflexivity].
      destruct (index s i) as [b| |] eqn:?; [|reflexivity|reflexivity]. run.
      destruct (beq b dash) eqn:B; unfold dash in B; rewrite B; run; [reflexivity|].
      apply IH; apply Nat.ltb_lt in E; lia. }
  rewrite (L (length s)) by lia. now destruct (find_segment_end_loop (length s) s off).
Qed.

Lemma find_segment_start_src {M} n s e :
  60 + e <= n -> length s + 4 <= M ->
  call M crate n (VPath ["find_segment_start"]) [VStr s; VNat e] = lift VNat (find_segment_start s e).
Proof.
  intros Hn HM. fuel n 50. enter. run. unfold find_segment_start, lift. destruct e as [|e]; run; [reflexivity|].
  cbn [Nat.ltb Nat.leb]. run. cbn [Nat.leb Nat.sub]. run. rewrite ?Nat.sub_0_r.
  match goal with
  | |- context [eval M crate _ (_ :: ?e) (ELoop ?b)] =>
    assert (forall i n, 30 + i <= n ->
      ends (eval M crate n (("i", VNat i) :: e) (ELoop b)) =
      omap (fun v => Some (VNat v)) (find_segment_start_loop s i)) as L
  end.
  { induction i as [|i IH]; intros n Hn'; fuel n 30; cbn [find_segment_start_loop]; unroll;
      (destruct (index s _) as [b| |] eqn:?; [|reflexivity|reflexivity]); run;
      destruct (beq b dash) eqn:B; unfold dash in B; rewrite B; run; try reflexivity.
    cbn [Nat.ltb Nat.leb]. run. cbn [Nat.leb Nat.sub]. run. rewrite ?Nat.sub_0_r. apply IH. lia. }
  rewrite finish2, (L e) by lia. now destruct (find_segment_start_loop s e).
Qed.

(** * 2. Singleton *)

Lemma Singleton_new_src {M} n c :
  40 <= n ->
  call M crate n (VPath ["Singleton"; "new"]) [VByte c] = Ret (vsingleton_result VByte (Singleton_new c), []).
Proof.
  intro Hn. fuel n 40. enter. run. unfold Singleton_new.
  destruct (beq c "x"); run; [reflexivity|]. destruct (beq c "X"); run; [reflexivity|].
  destruct (is_ascii_alphanumeric c); run; reflexivity.
Qed.
Lemma Singleton_try_from_u8_src {M} n c :
  60 <= n ->
  call M crate n (VPath ["Singleton"; "as"; "TryFrom"; "u8"; "try_from"]) [VByte c] =
  Ret (vsingleton_result VByte (Singleton_try_from_u8 c), []).
Proof.
  intro Hn. fuel n 20. enter. run. rewrite Singleton_new_src by lia. unfold Singleton_try_from_u8.
  destruct (Singleton_new c); run; reflexivity.
Qed.

Lemma u8_as c : exists b, u8_of (c mod 256) = Some b /\ as_u8 c = b.
Proof.
  unfold as_u8, u8_of. destruct (Strings.Byte.of_N (c mod 256)) eqn:E; [eauto|].
  apply Strings.Byte.of_N_None_iff in E. pose proof (N.mod_lt c 256 ltac:(lia)). lia.
Qed.

Lemma Singleton_try_from_char_src {M} n c :
  80 <= n ->
  call M crate n (VPath ["Singleton"; "as"; "TryFrom"; "char"; "try_from"]) [VChar c] =
  Ret (vsingleton_result VChar (Singleton_try_from_char c), []).
Proof.
  intro Hn. fuel n 40. enter. run. unfold Singleton_try_from_char.
  change (code xff) with 255%N.
  destruct (c <? 255)%N; run; [|reflexivity].
  destruct (u8_as c) as (b & E & ->). rewrite E. run.
  rewrite Singleton_new_src by lia. destruct (Singleton_new b); cbn [vsingleton_result okv errv]; run; reflexivity.
Qed.

Lemma Singleton_from_string_src {M} n s :
  110 <= n ->
  call M crate n (VPath ["Singleton"; "from_string"]) [VStr s] = lift (vsingleton_result VStr) (Singleton_from_string s).
Proof.
  intro Hn. fuel n 30. enter. run. unfold Singleton_from_string, lift.
  destruct (length s =? 1) eqn:E; run; [|reflexivity].
  destruct s as [|b s]; [discriminate|].
  destruct (decode_utf8_char (b :: s) 0) as [[c k]|]; [|reflexivity]. run.
  rewrite Singleton_try_from_char_src by lia.
  destruct (Singleton_try_from_char c); cbn [vsingleton_result okv errv]; run; reflexivity.
Qed.

Lemma Singleton_from_str_src {M} n s :
  140 <= n ->
  call M crate n (VPath ["Singleton"; "from_str"]) [VStr s] = lift (vsingleton_result VStr) (Singleton_from_str s).
Proof.
  intro Hn. fuel n 30. enter. run. rewrite Singleton_from_string_src by lia. unfold Singleton_from_str, lift.
  destruct (Singleton_from_string s) as [[]| |]; cbn [bind vsingleton_result okv errv]; run; reflexivity.
Qed.

Lemma Singleton_unwrap_src {M} n b :
  20 <= n -> call M crate n (VPath ["Singleton"; "unwrap"]) [vsingleton b] = Ret (VByte (Singleton_unwrap b), []).
Proof. intro Hn. fuel n 20. unfold vsingleton. enter. run. reflexivity. Qed.
Lemma Singleton_eq_u8_src {M} n a b :
  20 <= n ->
  call M crate n (VPath ["Singleton"; "as"; "PartialEq"; "u8"; "eq"]) [vsingleton a; VByte b] =
  Ret (VBool (Singleton_eq_u8 a b), []).
Proof. intro Hn. fuel n 20. unfold vsingleton. enter. run. reflexivity. Qed.
Lemma Singleton_eq_char_src {M} n a c :
  20 <= n ->
  call M crate n (VPath ["Singleton"; "as"; "PartialEq"; "char"; "eq"]) [vsingleton a; VChar c] =
  Ret (VBool (Singleton_eq_char a c), []).
Proof. intro Hn. fuel n 20. unfold vsingleton. enter. run. reflexivity. Qed.

(** [Display] and [Debug], with the default format specification. *)
Lemma Singleton_display_src {M} n b l :
  20 <= n -> is_ascii_alphanumeric b = true ->
  call M crate n (VPath ["Singleton"; "as"; "Display"; ""; "fmt"]) [vsingleton b; VSink l] = Ret (okv VUnit, [VSink (l ++ [b])]).
Proof.
  intros Hn H. fuel n 20. unfold vsingleton. enter. run.
  replace (encode_latin1 (code b)) with (Some [b]) by (destruct b; (vm_compute in H; discriminate H) || reflexivity).
  run. reflexivity.
Qed.
Lemma Singleton_debug_src {M} n b l :
  20 <= n -> is_ascii_alphanumeric b = true ->
  call M crate n (VPath ["Singleton"; "as"; "Debug"; ""; "fmt"]) [vsingleton b; VSink l] =
  Ret (okv VUnit, [VSink (l ++ [x27; b; x27])]).
Proof.
  intros Hn H. fuel n 20. unfold vsingleton. enter. run.
  replace (u8_of (code b)) with (Some b) by (destruct b; reflexivity). rewrite H.
  run. reflexivity.
Qed.

(** * 3. NormalLangTag *)

(** Rewrites the call of [validate_bytes] made by [new]. *)
Ltac validated ty :=
  let H := fresh in
  pose proof (fun M => @validate_bytes_src M ty) as H; cbv [grammar_type automaton_name append automaton_of] in H;
  rewrite H by lia; clear H; unfold lift.

Lemma language_end_src {M} n s :
  200 + 2 * length s <= n -> length s + 4 <= M ->
  call M crate n (VPath ["NormalLangTag"; "language_end"]) [vtag NormalLangTagT s] = lift VNat (language_end s).
Proof.
  intros Hn HM. fuel n 20. unfold language_end, vtag, type_of. enter. run.
  erewrite (find_list_end_src _ s 0 _ (fun i segment => if i =? 0 then Ret true else new_is_ok ExtlangTag segment) (120 + length s)).
  - unfold lift. destruct (find_list_end s 0 _); run; reflexivity.
  - intros k o sub Hk Hs. fuel k 20. enter. run. destruct (o =? 0); run; [reflexivity|].
    unfold new_is_ok, new. validated ExtendedLangTagT. destruct (validate ExtlangTag sub) as [[]| |]; run; reflexivity.
  - reflexivity.
  - lia.
  - lia.
Qed.

Lemma NormalLangTag_language_src {M} n s :
  240 + 2 * length s <= n -> length s + 4 <= M ->
  call M crate n (VPath ["NormalLangTag"; "language"]) [vtag NormalLangTagT s] =
  lift (vtag LanguageT) (NormalLangTag_language s).
Proof.
  intros Hn HM. fuel n 20. unfold NormalLangTag_language. enter. run. rewrite language_end_src by lia. unfold lift.
  destruct (language_end s) as [e| |] eqn:?; [|reflexivity|reflexivity]. run.
  destruct (slice_to s e); [|reflexivity|reflexivity]. run. reflexivity.
Qed.

(** A closure that asks whether [segment] is a value of the type. *)
Ltac is_ok_closure ty :=
  unfold new_is_ok, new; validated ty;
  match goal with |- context [validate ?A ?s] => destruct (validate A s) as [[]| |]; run; reflexivity end.

Lemma script_range_src {M} n s :
  240 + 2 * length s <= n -> length s + 4 <= M ->
  call M crate n (VPath ["NormalLangTag"; "script_range"]) [vtag NormalLangTagT s] = lift vrange_result (script_range s).
Proof.
  intros Hn HM. fuel n 30. unfold script_range. enter. run. rewrite language_end_src by lia. unfold lift at 1.
  destruct (language_end s) as [e| |] eqn:?; [|reflexivity|reflexivity]. run.
  erewrite (find_list_end_src _ s (e + 1) _ (fun i segment => if i =? e + 1 then new_is_ok Script segment else Ret false)
    (120 + length s)).
  - unfold lift. destruct (find_list_end s (e + 1) _) as [x| |] eqn:?; run; [|reflexivity|reflexivity].
    destruct (x =? e + 1); run; reflexivity.
  - intros k o sub Hk Hs. fuel k 20. enter. run. destruct (o =? e + 1); run; [|reflexivity]. is_ok_closure ScriptT.
  - reflexivity.
  - lia.
  - lia.
Qed.

Lemma NormalLangTag_script_src {M} n s :
  280 + 2 * length s <= n -> length s + 4 <= M ->
  call M crate n (VPath ["NormalLangTag"; "script"]) [vtag NormalLangTagT s] =
  lift (voption (vtag ScriptT)) (NormalLangTag_script s).
Proof.
  intros Hn HM. fuel n 20. unfold NormalLangTag_script. enter. run. rewrite script_range_src by lia. unfold lift.
  destruct (script_range s) as [[[a b]|i]| |] eqn:?; cbn [bind vrange_result vrange range fst snd okv errv]; run; try reflexivity.
  destruct (slice s a b); [|reflexivity|reflexivity]. run. reflexivity.
Qed.

Lemma region_range_src {M} n s :
  280 + 2 * length s <= n -> length s + 4 <= M ->
  call M crate n (VPath ["NormalLangTag"; "region_range"]) [vtag NormalLangTagT s] = lift vrange_result (region_range s).
Proof.
  intros Hn HM. fuel n 30. unfold region_range. enter. run. rewrite script_range_src by lia. unfold lift at 1.
  destruct (script_range s) as [r| |] eqn:?; [|reflexivity|reflexivity]. cbn [bind].
  assert (forall e (G : outcome (value * list value)), end_of r = e ->
    lift vrange_result (let! x := find_list_end s (e + 1) (fun i segment =>
      if i =? e + 1 then new_is_ok Region segment else Ret false) in
      Ret (if negb (x =? e + 1) then Ok (e + 1, x) else Err e)) = G ->
    lift vrange_result (let! x := find_list_end s (end_of r + 1) (fun i segment =>
      if i =? end_of r + 1 then new_is_ok Region segment else Ret false) in
      Ret (if negb (x =? end_of r + 1) then Ok (end_of r + 1, x) else Err (end_of r))) = G) as R
    by (now intros e G <-).
  symmetry. destruct r as [[a e]|e]; (eapply (R e); [reflexivity|]); symmetry; clear R;
  cbn [vrange_result vrange range fst snd okv errv]; run;
  (erewrite (find_list_end_src _ s (e + 1) _ (fun i segment => if i =? e + 1 then new_is_ok Region segment else Ret false)
    (120 + length s));
  [ unfold lift; destruct (find_list_end s (e + 1) _) as [x| |] eqn:?; run; [|reflexivity|reflexivity];
    destruct (x =? e + 1); run; reflexivity
  | intros k o sub Hk Hs; fuel k 20; enter; run; destruct (o =? e + 1); run; [|reflexivity]; is_ok_closure RegionT
  | reflexivity
  | lia
  | lia ]).
Qed.

Lemma NormalLangTag_region_src {M} n s :
  320 + 2 * length s <= n -> length s + 4 <= M ->
  call M crate n (VPath ["NormalLangTag"; "region"]) [vtag NormalLangTagT s] =
  lift (voption (vtag RegionT)) (NormalLangTag_region s).
Proof.
  intros Hn HM. fuel n 20. unfold NormalLangTag_region. enter. run. rewrite region_range_src by lia. unfold lift.
  destruct (region_range s) as [[[a b]|i]| |] eqn:?; cbn [bind vrange_result vrange range fst snd okv errv]; run; try reflexivity.
  destruct (slice s a b); [|reflexivity|reflexivity]. run. reflexivity.
Qed.
