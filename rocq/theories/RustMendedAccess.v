(** The functions of the patched text that use one of the two changed functions, run symbolically. *)
From Verif Require Import Base GrammarRs Validate Utils Grandfathered Normal LangTag Newtypes Derived NoOverflow Repair.
From Verif Require Import RustText RustSyntax RustEval RustProgram RustRefine RustGrammar RustValidate RustNormal RustAccess
  RustTags RustLib RustSays RustOracle RustGenerated RustMended.
Import Base.
Open Scope string_scope.
Open Scope nat_scope.
Open Scope list_scope.

(** * 1. The functions of the model, with the patch *)

(** Each is the definition for the lines cited, with [find_list_end_guarded] for [find_list_end]; [guarded_private_use_offset]
    starts from the extensions. *)
(** normal/mod.rs:34-38, [language_end]. *)
Definition guarded_language_end (s : bytes) : outcome nat :=
  find_list_end_guarded s 0 (fun i segment =>
    if i =? 0 then Ret true else new_is_ok ExtlangTag segment).
(** normal/mod.rs:41-43, [NormalLangTag::language]. *)
Definition guarded_language (s : bytes) : outcome bytes :=
  let! e := guarded_language_end s in slice_to s e.
(** normal/mod.rs:45-56, [script_range]. *)
Definition guarded_script_range (s : bytes) : outcome range_result :=
  let! language_end := guarded_language_end s in
  let offset := language_end + 1 in
  let! e := find_list_end_guarded s offset (fun i segment =>
    if i =? offset then new_is_ok Script segment else Ret false) in
  Ret (if negb (e =? offset) then Ok (offset, e) else Err language_end).
(** normal/mod.rs:59-63, [NormalLangTag::script]. *)
Definition guarded_script (s : bytes) : outcome (option bytes) :=
  let! r := guarded_script_range s in
  match r with
  | Ok (a, b) => omap Some (slice s a b)
  | Err _ => Ret None
  end.
(** normal/mod.rs:65-80, [region_range]. *)
Definition guarded_region_range (s : bytes) : outcome range_result :=
  let! r := guarded_script_range s in
  let script_end := end_of r in
  let offset := script_end + 1 in
  let! e := find_list_end_guarded s offset (fun i segment =>
    if i =? offset then new_is_ok Region segment else Ret false) in
  Ret (if negb (e =? offset) then Ok (offset, e) else Err script_end).
(** normal/mod.rs:83-87, [NormalLangTag::region]. *)
Definition guarded_region (s : bytes) : outcome (option bytes) :=
  let! r := guarded_region_range s in
  match r with
  | Ok (a, b) => omap Some (slice s a b)
  | Err _ => Ret None
  end.
(** normal/mod.rs:89-102, [variants_range]. *)
Definition guarded_variants_range (s : bytes) : outcome (nat * nat) :=
  let! r := guarded_region_range s in
  let region_end := end_of r in
  let offset := region_end + 1 in
  let! e := find_list_end_guarded s offset (fun _ segment => new_is_ok Variant segment) in
  Ret (if e =? offset then (region_end, region_end) else (offset, e)).
(** normal/mod.rs:105-107, [NormalLangTag::variants]. *)
Definition guarded_variants (s : bytes) : outcome bytes :=
  let! r := guarded_variants_range s in slice s (fst r) (snd r).
(** normal/mod.rs:109-122, [extensions_range]. *)
Definition guarded_extensions_range (s : bytes) : outcome (nat * nat) :=
  let! r := guarded_variants_range s in
  let variants_end := snd r in
  let offset := variants_end + 1 in
  let! e := find_list_end_guarded s offset (fun _ segment =>
    let! a := Singleton_from_string segment in
    if is_ok a then Ret true else new_is_ok ExtensionSubtag segment) in
  Ret (if e =? offset then (variants_end, variants_end) else (offset, e)).
(** normal/mod.rs:125-127, [NormalLangTag::extensions]. *)
Definition guarded_extensions (s : bytes) : outcome bytes :=
  let! r := guarded_extensions_range s in slice s (fst r) (snd r).
(** normal/mod.rs:129-137, [private_use_offset]. *)
Definition guarded_private_use_offset (s : bytes) : outcome (option nat) :=
  let! r := guarded_extensions_range s in
  let variants_end := snd r in
  Ret (if variants_end <? length s then Some (variants_end + 1) else None).
(** normal/mod.rs:140-143, [NormalLangTag::private_use]. *)
Definition guarded_private_use (s : bytes) : outcome (option bytes) :=
  let! o := guarded_private_use_offset s in
  match o with
  | Some i => omap Some (slice_from s i)
  | None => Ret None
  end.
(** normal/mod.rs:145-150, [NormalLangTag::private_use_subtags]. *)
Definition guarded_private_use_subtags (s : bytes) : outcome iter :=
  let! p := guarded_private_use s in
  Ret match p with
      | Some p => PrivateUse_iter p
      | None => iter_default
      end.
(** extension.rs:218-234, the [while] loop of [Extensions::get]. *)
Fixpoint guarded_Extensions_get_loop (fuel : nat) (s : bytes) (singleton : byte) (i : nat) (starting : bool)
  : outcome (option bytes) :=
  if i + 1 <? length s then
    match fuel with
    | O => OutOfFuel
    | S fuel' =>
      let! b := index s i in
      if starting then
        let! hit :=
          (if beq b singleton then let! b1 := index s (i + 1) in Ret (beq b1 dash) else Ret false) in
        if hit then
          let! e := find_list_end_guarded s (i + 2) (fun _ segment => Ret (1 <? length segment)) in
          omap Some (slice s i e)
        else guarded_Extensions_get_loop fuel' s singleton (i + 1) false
      else guarded_Extensions_get_loop fuel' s singleton (i + 1) (beq b dash)
    end
  else Ret None.
(** extension.rs:214-235, [Extensions::get]. *)
Definition guarded_Extensions_get (s : bytes) (singleton : byte) : outcome (option bytes) :=
  guarded_Extensions_get_loop (length s) s singleton 0 true.
(** extension.rs:286-300, [ExtensionsIter::next]. *)
Definition guarded_ExtensionsIter_next (it : iter) : outcome (option bytes * iter) :=
  if it_offset it <? length (it_data it) then
    let offset := it_offset it + 2 in
    let! e := find_list_end_guarded (it_data it) offset (fun _ segment => new_is_ok ExtensionSubtag segment) in
    let! item := slice (it_data it) (it_offset it) e in
    Ret (Some item, Iter (it_data it) (e + 1))
  else Ret (None, it).
(** extension.rs:241-243, [Extensions::iter_extension]. *)
Definition guarded_Extensions_iter_extension (s : bytes) (singleton : byte) : outcome iter :=
  let! e := guarded_Extensions_get s singleton in
  Ret match e with
      | Some e => Extension_iter e
      | None => iter_default
      end.
(** lib.rs:87-95, [LangTag::language]. *)
Definition guarded_LangTag_language (s : bytes) : outcome (option bytes) :=
  let! r := new Langtag s in
  match r with
  | Ok t => omap Some (guarded_language t)
  | Err _ =>
    let! g := Grandfathered_new s in
    Ret match g with
        | Ok t => Grandfathered_language t
        | Err _ => None
        end
  end.
(** lib.rs:98-100, [LangTag::script]. *)
Definition guarded_LangTag_script (s : bytes) : outcome (option bytes) :=
  let! n := LangTag_as_normal s in and_then n guarded_script.
(** lib.rs:103-105, [LangTag::region]. *)
Definition guarded_LangTag_region (s : bytes) : outcome (option bytes) :=
  let! n := LangTag_as_normal s in and_then n guarded_region.
(** lib.rs:108-112, [LangTag::variants]. *)
Definition guarded_LangTag_variants (s : bytes) : outcome bytes :=
  let! n := LangTag_as_normal s in
  match n with
  | Some t => guarded_variants t
  | None => Ret Variants_EMPTY
  end.
(** lib.rs:115-119, [LangTag::extensions]. *)
Definition guarded_LangTag_extensions (s : bytes) : outcome bytes :=
  let! n := LangTag_as_normal s in
  match n with
  | Some t => guarded_extensions t
  | None => Ret Extensions_EMPTY
  end.
(** lib.rs:122-124, [LangTag::private_use]. *)
Definition guarded_LangTag_private_use (s : bytes) : outcome (option bytes) :=
  let! n := LangTag_as_normal s in and_then n guarded_private_use.
(** lib.rs:127-131, [LangTag::private_use_subtags]. *)
Definition guarded_LangTag_private_use_subtags (s : bytes) : outcome iter :=
  let! p := guarded_LangTag_private_use s in
  Ret match p with
      | Some p => PrivateUse_iter p
      | None => iter_default
      end.
(** lib.rs:229-235, [TypedLangTag::language]. *)
Definition guarded_Typed_language (t : typed) : outcome (option bytes) :=
  match t with
  | TNormal n => omap Some (guarded_language n)
  | TPrivateUse _ => Ret None
  | TGrandfathered g => Ret (Grandfathered_language g)
  end.

(** Those of Repair.v. *)
Lemma guarded_repaired s :
  guarded_language s = repaired_language s /\ guarded_script s = repaired_script s /\ guarded_region s = repaired_region s /\
  guarded_variants s = repaired_variants s /\ guarded_extensions s = repaired_extensions s /\
  guarded_private_use s = repaired_private_use s.
Proof.
  repeat split. unfold guarded_private_use, guarded_private_use_offset, repaired_private_use, private_use_with.
  change (extensions_range_with find_list_end_guarded s) with (guarded_extensions_range s).
  destruct (guarded_extensions_range s) as [[a b]| |]; [|reflexivity|reflexivity]. cbn [bind snd].
  destruct (b <? length s); reflexivity.
Qed.

(** * 2. Bounds *)

Lemma guarded_le s off f r : find_list_end_guarded s off f = Ret r -> r <= length s \/ r = off.
Proof.
  unfold find_list_end_guarded. destruct (length s <? off); [intros [= <-]; auto|]. intros H. left. eapply find_list_end_le, H.
Qed.
Lemma guarded_language_end_le s e : guarded_language_end s = Ret e -> e <= length s.
Proof. intros H. apply guarded_le in H. lia. Qed.
Lemma guarded_script_range_le s r : guarded_script_range s = Ret r -> end_of r <= length s.
Proof.
  unfold guarded_script_range. destruct (guarded_language_end s) as [e| |] eqn:E; try discriminate. cbn [bind].
  destruct (find_list_end_guarded _ _ _) as [x| |] eqn:X; try discriminate. cbn [bind]. intros [= <-].
  apply guarded_language_end_le in E. apply guarded_le in X. destruct (Nat.eqb_spec x (e + 1)); cbn; lia.
Qed.
Lemma guarded_region_range_le s r : guarded_region_range s = Ret r -> end_of r <= length s.
Proof.
  unfold guarded_region_range. destruct (guarded_script_range s) as [e| |] eqn:E; try discriminate. cbn [bind].
  destruct (find_list_end_guarded _ _ _) as [x| |] eqn:X; try discriminate. cbn [bind]. intros [= <-].
  apply guarded_script_range_le in E. apply guarded_le in X. destruct (Nat.eqb_spec x (end_of e + 1)); cbn; lia.
Qed.
Lemma guarded_variants_range_le s r : guarded_variants_range s = Ret r -> snd r <= length s.
Proof.
  unfold guarded_variants_range. destruct (guarded_region_range s) as [e| |] eqn:E; try discriminate. cbn [bind].
  destruct (find_list_end_guarded _ _ _) as [x| |] eqn:X; try discriminate. cbn [bind]. intros [= <-].
  apply guarded_region_range_le in E. apply guarded_le in X. destruct (Nat.eqb_spec x (end_of e + 1)); cbn; lia.
Qed.
Lemma guarded_extensions_range_le s r : guarded_extensions_range s = Ret r -> snd r <= length s.
Proof.
  unfold guarded_extensions_range. destruct (guarded_variants_range s) as [e| |] eqn:E; try discriminate. cbn [bind].
  destruct (find_list_end_guarded _ _ _) as [x| |] eqn:X; try discriminate. cbn [bind]. intros [= <-].
  apply guarded_variants_range_le in E. apply guarded_le in X. destruct (Nat.eqb_spec x (snd e + 1)); cbn; lia.
Qed.
Ltac bounds ::=
  repeat match goal with
  | H : (_ <? _) = true |- _ => apply Nat.ltb_lt in H
  | H : (_ <? _) = false |- _ => apply Nat.ltb_ge in H
  | H : (_ <=? _) = true |- _ => apply Nat.leb_le in H
  | H : (_ <=? _) = false |- _ => apply Nat.leb_gt in H
  | H : index ?s _ = Ret _ |- _ => apply index_lt in H
  | H : slice ?s _ _ = Ret _ |- _ => apply slice_length in H
  | H : slice_from ?s _ = Ret _ |- _ => apply slice_from_length in H
  | H : find_list_end_guarded _ _ _ = Ret _ |- _ => apply guarded_le in H
  | H : guarded_language_end _ = Ret _ |- _ => apply guarded_language_end_le in H
  | H : guarded_script_range _ = Ret _ |- _ => apply guarded_script_range_le in H; cbn [end_of snd] in H
  | H : guarded_region_range _ = Ret _ |- _ => apply guarded_region_range_le in H; cbn [end_of snd] in H
  | H : guarded_variants_range _ = Ret _ |- _ => apply guarded_variants_range_le in H; cbn [snd] in H
  | H : guarded_extensions_range _ = Ret _ |- _ => apply guarded_extensions_range_le in H; cbn [snd] in H
  end.

(** * 3. The functions that are as before *)

Lemma validate_bytes_mended {M} ty n s :
  80 + length s <= n -> length s + 4 <= M ->
  call M mended n (VPath [grammar_type ty; "validate_bytes"]) [VBytes s] = lift VBool (validate (automaton_of ty) s).
Proof. intros H H'. rewrite mended_same by (destruct ty; reflexivity). now apply validate_bytes_src. Qed.
Lemma Singleton_try_from_char_mended {M} n c :
  80 <= n ->
  call M mended n (VPath ["Singleton"; "as"; "TryFrom"; "char"; "try_from"]) [VChar c] =
  Ret (vsingleton_result VChar (Singleton_try_from_char c), []).
Proof. rewrite mended_same by reflexivity. apply Singleton_try_from_char_src. Qed.
Lemma find_segment_end_mended {M} n s off :
  60 + length s <= n -> length s + 4 <= M ->
  call M mended n (VPath ["find_segment_end"]) [VStr s; VNat off] = lift VNat (find_segment_end s off).
Proof. rewrite mended_same by reflexivity. apply find_segment_end_src. Qed.
Lemma Variants_iter_mended {M} n s :
  30 <= n -> call M mended n (VPath ["Variants"; "iter"]) [vtag VariantsT s] = Ret (vviter (Variants_iter s), []).
Proof. rewrite mended_same by reflexivity. apply Variants_iter_src. Qed.
Lemma Grandfathered_new_mended {M} n s w :
  140 <= n -> w = VStr \/ w = VBytes ->
  call M mended n (VPath ["GrandfatheredLangTag"; "new"]) [w s] = lift (vgrandfathered_result w) (Grandfathered_new s).
Proof. intros H W. rewrite mended_same by (destruct W as [-> | ->]; reflexivity). now apply Grandfathered_new_src. Qed.
Lemma LangTag_as_normal_mended {M} n s :
  140 + length s <= n -> length s + 4 <= M ->
  call M mended n (VPath ["LangTag"; "as_normal"]) [vtag LangTagT s] =
  lift (voption (vtag NormalLangTagT)) (LangTag_as_normal s).
Proof. rewrite mended_same by reflexivity. apply LangTag_as_normal_src. Qed.

Ltac validated_mended ty :=
  let H := fresh in
  pose proof (fun M => @validate_bytes_mended M ty) as H; cbv [grammar_type automaton_name append automaton_of] in H;
  rewrite H by lia; clear H; unfold lift.
Ltac is_ok_mended ty :=
  unfold new_is_ok, new; validated_mended ty;
  match goal with |- context [validate ?A ?s] => destruct (validate A s) as [[]| |]; run; reflexivity end.
Ltac constructs_mended ty :=
  let H := fresh in
  pose proof (fun M => @validate_bytes_mended M ty) as H; cbv [grammar_type automaton_name append automaton_of] in H;
  rewrite H by lia; clear H.
Ltac segment_next_mended :=
  match goal with |- _ -> _ -> call _ _ ?n _ [_ _ ?it] = _ => destruct it as [s o]; intros ? ?; fuel n 30 end;
  unfold viter_of; cbn [it_data it_offset] in *; enter; run; unfold lift_step;
  match goal with |- context [?o <? length ?s] => destruct (o <? length s) eqn:? end; run; [|reflexivity];
  rewrite find_segment_end_mended by lia; unfold lift;
  match goal with |- context [find_segment_end ?s ?o] => destruct (find_segment_end s o) as [e| |] eqn:? end;
  [|reflexivity|reflexivity]; run;
  match goal with |- context [slice ?s ?o ?e] => destruct (slice s o e) eqn:? end; [|reflexivity|reflexivity]; run; reflexivity.
Ltac of_normal_mended L F :=
  match goal with |- _ <= ?n -> _ -> _ => intros ? ?; fuel n 40 end; enter; run; rewrite LangTag_as_normal_mended by lia; unfold lift;
  match goal with |- context [LangTag_as_normal ?s] =>
    let E := fresh in destruct (LangTag_as_normal s) as [[t|]| |] eqn:E; [apply as_normal_same in E; subst t|..] end;
  run; cbn [and_then]; [|reflexivity..];
  retag; rewrite L by lia; unfold lift;
  match goal with |- context [F ?s] => destruct (F s) end; run; reflexivity.

(** * 4. The others *)

Lemma find_list_end_mended {M} n s off fv f K :
  (forall k o sub, K <= k -> length sub <= length s -> call M mended k fv [VNat o; VStr sub] = lift VBool (f o sub)) ->
  muts mended fv = [] ->
  60 + length s + K <= n -> length s + 4 <= M ->
  call M mended n (VPath ["find_list_end"]) [VStr s; VNat off; fv] = lift VNat (find_list_end_guarded s off f).
Proof.
  intros Hf Hm Hn HM. fuel n 50. enter. run. unfold find_list_end_guarded, find_list_end, lift.
  destruct (length s <? off); run; [reflexivity|]. rewrite finish.
  match goal with
  | |- context [andthen (eval M mended _ (_ :: _ :: ("bytes", _) :: _) (EWhile ?c ?b)) ?k] =>
    assert (forall g i o e n, 30 + g + K <= n -> length s - i <= g ->
      ends (andthen (eval M mended n [("end", VNat e); ("i", VNat i); ("bytes", VBytes s); ("string", VStr s);
        ("offset", VNat o); ("f", fv); ("Self", VTy "")] (EWhile c b)) k) =
      omap (fun v => Some (VNat v)) (find_list_end_loop g s f i o e)) as L
  end.
  { induction g as [|g IH]; intros i o e n Hn' Hg; fuel n 30; cbn [find_list_end_loop].
    - destruct (i <? length s) eqn:E; [apply Nat.ltb_lt in E; lia|]. unroll. rewrite E. run.
      destruct (slice_from s o) as [sub| |] eqn:S; [|reflexivity|reflexivity]. run.
      apply slice_from_length in S as [S _]. rewrite Hf by (auto; lia). unfold lift.
      destruct (f o sub) as [[]| |]; run; reflexivity.
    - unroll. destruct (i <? length s) eqn:E; run.
      + destruct (index s i) as [b| |] eqn:?; [|reflexivity|reflexivity]. run.
        destruct (beq b dash) eqn:B; unfold dash in B; rewrite B; run.
        * destruct (slice s o i) as [sub| |] eqn:S; [|reflexivity|reflexivity]. run.
          apply slice_length in S as [S _]. rewrite Hf by (auto; lia). unfold lift.
          destruct (f o sub) as [[]| |]; run; try reflexivity. apply IH; apply Nat.ltb_lt in E; lia.
        * apply IH; apply Nat.ltb_lt in E; lia.
      + destruct (slice_from s o) as [sub| |] eqn:S; [|reflexivity|reflexivity]. run.
        apply slice_from_length in S as [S _]. rewrite Hf by (auto; lia). unfold lift.
        destruct (f o sub) as [[]| |]; run; reflexivity. }
  rewrite (L (length s)) by lia. now destruct (find_list_end_loop (length s) s f off off off).
Qed.
Lemma Singleton_from_string_mended {M} n s :
  110 <= n ->
  call M mended n (VPath ["Singleton"; "from_string"]) [VStr s] = lift (vsingleton_result VStr) (Singleton_from_string s).
Proof.
  intro Hn. fuel n 30. enter. run. unfold Singleton_from_string, lift.
  destruct (length s =? 1) eqn:E; run; [|reflexivity].
  destruct s as [|b s]; [discriminate|].
  destruct (decode_utf8_char (b :: s) 0) as [[c k]|]; [|reflexivity]. run.
  rewrite Singleton_try_from_char_mended by lia.
  destruct (Singleton_try_from_char c); cbn [vsingleton_result okv errv]; run; reflexivity.
Qed.
Lemma Singleton_from_str_mended {M} n s :
  140 <= n ->
  call M mended n (VPath ["Singleton"; "from_str"]) [VStr s] = lift (vsingleton_result VStr) (Singleton_from_str s).
Proof.
  intro Hn. fuel n 30. enter. run. rewrite Singleton_from_string_mended by lia. unfold Singleton_from_str, lift.
  destruct (Singleton_from_string s) as [[]| |]; cbn [bind vsingleton_result okv errv]; run; reflexivity.
Qed.
Lemma language_end_mended {M} n s :
  200 + 2 * length s <= n -> length s + 4 <= M ->
  call M mended n (VPath ["NormalLangTag"; "language_end"]) [vtag NormalLangTagT s] = lift VNat (guarded_language_end s).
Proof.
  intros Hn HM. fuel n 20. unfold guarded_language_end, vtag, type_of. enter. run.
  erewrite (find_list_end_mended _ s 0 _ (fun i segment => if i =? 0 then Ret true else new_is_ok ExtlangTag segment) (120 + length s)).
  - unfold lift. destruct (find_list_end_guarded s 0 _); run; reflexivity.
  - intros k o sub Hk Hs. fuel k 20. enter. run. destruct (o =? 0); run; [reflexivity|].
    unfold new_is_ok, new. validated_mended ExtendedLangTagT. destruct (validate ExtlangTag sub) as [[]| |]; run; reflexivity.
  - reflexivity.
  - lia.
  - lia.
Qed.
Lemma NormalLangTag_language_mended {M} n s :
  240 + 2 * length s <= n -> length s + 4 <= M ->
  call M mended n (VPath ["NormalLangTag"; "language"]) [vtag NormalLangTagT s] =
  lift (vtag LanguageT) (guarded_language s).
Proof.
  intros Hn HM. fuel n 20. unfold guarded_language. enter. run. rewrite language_end_mended by lia. unfold lift.
  destruct (guarded_language_end s) as [e| |] eqn:?; [|reflexivity|reflexivity]. run.
  destruct (slice_to s e); [|reflexivity|reflexivity]. run. reflexivity.
Qed.
Lemma script_range_mended {M} n s :
  240 + 2 * length s <= n -> length s + 4 <= M ->
  call M mended n (VPath ["NormalLangTag"; "script_range"]) [vtag NormalLangTagT s] = lift vrange_result (guarded_script_range s).
Proof.
  intros Hn HM. fuel n 30. unfold guarded_script_range. enter. run. rewrite language_end_mended by lia. unfold lift at 1.
  destruct (guarded_language_end s) as [e| |] eqn:?; [|reflexivity|reflexivity]. run.
  erewrite (find_list_end_mended _ s (e + 1) _ (fun i segment => if i =? e + 1 then new_is_ok Script segment else Ret false)
    (120 + length s)).
  - unfold lift. destruct (find_list_end_guarded s (e + 1) _) as [x| |] eqn:?; run; [|reflexivity|reflexivity].
    destruct (x =? e + 1); run; reflexivity.
  - intros k o sub Hk Hs. fuel k 20. enter. run. destruct (o =? e + 1); run; [|reflexivity]. is_ok_mended ScriptT.
  - reflexivity.
  - lia.
  - lia.
Qed.
Lemma NormalLangTag_script_mended {M} n s :
  280 + 2 * length s <= n -> length s + 4 <= M ->
  call M mended n (VPath ["NormalLangTag"; "script"]) [vtag NormalLangTagT s] =
  lift (voption (vtag ScriptT)) (guarded_script s).
Proof.
  intros Hn HM. fuel n 20. unfold guarded_script. enter. run. rewrite script_range_mended by lia. unfold lift.
  destruct (guarded_script_range s) as [[[a b]|i]| |] eqn:?; cbn [bind vrange_result vrange range fst snd okv errv]; run; try reflexivity.
  destruct (slice s a b); [|reflexivity|reflexivity]. run. reflexivity.
Qed.
Lemma region_range_mended {M} n s :
  280 + 2 * length s <= n -> length s + 4 <= M ->
  call M mended n (VPath ["NormalLangTag"; "region_range"]) [vtag NormalLangTagT s] = lift vrange_result (guarded_region_range s).
Proof.
  intros Hn HM. fuel n 30. unfold guarded_region_range. enter. run. rewrite script_range_mended by lia. unfold lift at 1.
  destruct (guarded_script_range s) as [r| |] eqn:?; [|reflexivity|reflexivity]. cbn [bind].
  assert (forall e (G : outcome (value * list value)), end_of r = e ->
    lift vrange_result (let! x := find_list_end_guarded s (e + 1) (fun i segment =>
      if i =? e + 1 then new_is_ok Region segment else Ret false) in
      Ret (if negb (x =? e + 1) then Ok (e + 1, x) else Err e)) = G ->
    lift vrange_result (let! x := find_list_end_guarded s (end_of r + 1) (fun i segment =>
      if i =? end_of r + 1 then new_is_ok Region segment else Ret false) in
      Ret (if negb (x =? end_of r + 1) then Ok (end_of r + 1, x) else Err (end_of r))) = G) as R
    by (now intros e G <-).
  symmetry. destruct r as [[a e]|e]; (eapply (R e); [reflexivity|]); symmetry; clear R;
  cbn [vrange_result vrange range fst snd okv errv]; run;
  (erewrite (find_list_end_mended _ s (e + 1) _ (fun i segment => if i =? e + 1 then new_is_ok Region segment else Ret false)
    (120 + length s));
  [ unfold lift; destruct (find_list_end_guarded s (e + 1) _) as [x| |] eqn:?; run; [|reflexivity|reflexivity];
    destruct (x =? e + 1); run; reflexivity
  | intros k o sub Hk Hs; fuel k 20; enter; run; destruct (o =? e + 1); run; [|reflexivity]; is_ok_mended RegionT
  | reflexivity
  | lia
  | lia ]).
Qed.
Lemma NormalLangTag_region_mended {M} n s :
  320 + 2 * length s <= n -> length s + 4 <= M ->
  call M mended n (VPath ["NormalLangTag"; "region"]) [vtag NormalLangTagT s] =
  lift (voption (vtag RegionT)) (guarded_region s).
Proof.
  intros Hn HM. fuel n 20. unfold guarded_region. enter. run. rewrite region_range_mended by lia. unfold lift.
  destruct (guarded_region_range s) as [[[a b]|i]| |] eqn:?; cbn [bind vrange_result vrange range fst snd okv errv]; run; try reflexivity.
  destruct (slice s a b); [|reflexivity|reflexivity]. run. reflexivity.
Qed.
Lemma variants_range_mended {M} n s :
  320 + 2 * length s <= n -> length s + 4 <= M ->
  call M mended n (VPath ["NormalLangTag"; "variants_range"]) [vtag NormalLangTagT s] = lift vrange (guarded_variants_range s).
Proof.
  intros Hn HM. fuel n 30. unfold guarded_variants_range. enter. run. rewrite region_range_mended by lia. unfold lift at 1.
  destruct (guarded_region_range s) as [r| |] eqn:?; [|reflexivity|reflexivity]. cbn [bind].
  assert (forall e (G : outcome (value * list value)), end_of r = e ->
    lift vrange (let! x := find_list_end_guarded s (e + 1) (fun _ segment => new_is_ok Variant segment) in
      Ret (if x =? e + 1 then (e, e) else (e + 1, x))) = G ->
    lift vrange (let! x := find_list_end_guarded s (end_of r + 1) (fun _ segment => new_is_ok Variant segment) in
      Ret (if x =? end_of r + 1 then (end_of r, end_of r) else (end_of r + 1, x))) = G) as R
    by (now intros e G <-).
  symmetry. destruct r as [[a e]|e]; (eapply (R e); [reflexivity|]); symmetry; clear R; run;
  (erewrite (find_list_end_mended _ s (e + 1) _ (fun _ segment => new_is_ok Variant segment) (120 + length s));
  [ unfold lift; destruct (find_list_end_guarded s (e + 1) _) as [x| |] eqn:?; run; [|reflexivity|reflexivity];
    destruct (x =? e + 1); run; reflexivity
  | intros k o sub Hk Hs; fuel k 20; enter; run; is_ok_mended VariantT
  | reflexivity
  | lia
  | lia ]).
Qed.
Lemma NormalLangTag_variants_mended {M} n s :
  360 + 2 * length s <= n -> length s + 4 <= M ->
  call M mended n (VPath ["NormalLangTag"; "variants"]) [vtag NormalLangTagT s] =
  lift (vtag VariantsT) (guarded_variants s).
Proof.
  intros Hn HM. fuel n 20. unfold guarded_variants. enter. run. rewrite variants_range_mended by lia. unfold lift.
  destruct (guarded_variants_range s) as [[a b]| |] eqn:?; run; try reflexivity.
  destruct (slice s a b); [|reflexivity|reflexivity]. run. reflexivity.
Qed.
Lemma extensions_range_mended {M} n s :
  400 + 2 * length s <= n -> length s + 4 <= M ->
  call M mended n (VPath ["NormalLangTag"; "extensions_range"]) [vtag NormalLangTagT s] =
  lift vrange (guarded_extensions_range s).
Proof.
  intros Hn HM. fuel n 30. unfold guarded_extensions_range. enter. run. rewrite variants_range_mended by lia. unfold lift at 1.
  destruct (guarded_variants_range s) as [[a e]| |] eqn:?; [|reflexivity|reflexivity]. run.
  erewrite (find_list_end_mended _ s (e + 1) _ (fun _ segment =>
    let! a := Singleton_from_string segment in if is_ok a then Ret true else new_is_ok ExtensionSubtag segment)
    (140 + length s)).
  - unfold lift. destruct (find_list_end_guarded s (e + 1) _) as [x| |] eqn:?; run; [|reflexivity|reflexivity].
    destruct (x =? e + 1); run; reflexivity.
  - intros k o sub Hk Hs. fuel k 30. enter. run. rewrite Singleton_from_string_mended by lia. unfold lift.
    destruct (Singleton_from_string sub) as [[]| |]; run; cbn [is_ok]; try reflexivity. is_ok_mended ExtensionSubtagT.
  - reflexivity.
  - lia.
  - lia.
Qed.
Lemma NormalLangTag_extensions_mended {M} n s :
  440 + 2 * length s <= n -> length s + 4 <= M ->
  call M mended n (VPath ["NormalLangTag"; "extensions"]) [vtag NormalLangTagT s] =
  lift (vtag ExtensionsT) (guarded_extensions s).
Proof.
  intros Hn HM. fuel n 20. unfold guarded_extensions. enter. run. rewrite extensions_range_mended by lia. unfold lift.
  destruct (guarded_extensions_range s) as [[a b]| |]; run; try reflexivity.
  destruct (slice s a b); [|reflexivity|reflexivity]. run. reflexivity.
Qed.
Lemma private_use_offset_mended {M} n s :
  440 + 2 * length s <= n -> length s + 4 <= M ->
  call M mended n (VPath ["NormalLangTag"; "private_use_offset"]) [vtag NormalLangTagT s] =
  lift (voption VNat) (guarded_private_use_offset s).
Proof.
  intros Hn HM. fuel n 20. unfold guarded_private_use_offset. enter. run. rewrite extensions_range_mended by lia. unfold lift.
  destruct (guarded_extensions_range s) as [[a b]| |] eqn:?; run; try reflexivity.
  destruct (b <? length s); run; reflexivity.
Qed.
Lemma NormalLangTag_private_use_mended {M} n s :
  500 + 2 * length s <= n -> length s + 4 <= M ->
  call M mended n (VPath ["NormalLangTag"; "private_use"]) [vtag NormalLangTagT s] =
  lift (voption (vtag PrivateUseT)) (guarded_private_use s).
Proof.
  intros Hn HM. fuel n 20. unfold guarded_private_use. enter. run. rewrite private_use_offset_mended by lia. unfold lift.
  destruct (guarded_private_use_offset s) as [[i|]| |]; run; try reflexivity.
  destruct (slice_from s i); [|reflexivity|reflexivity]. run. reflexivity.
Qed.
Lemma NormalLangTag_private_use_subtags_mended {M} n s :
  600 + 2 * length s <= n -> length s + 4 <= M ->
  call M mended n (VPath ["NormalLangTag"; "private_use_subtags"]) [vtag NormalLangTagT s] =
  lift (viter_of "PrivateUseIter") (guarded_private_use_subtags s).
Proof.
  intros Hn HM. fuel n 30. enter. run. rewrite NormalLangTag_private_use_mended by lia.
  unfold guarded_private_use_subtags, lift.
  destruct (guarded_private_use s) as [[p|]| |]; run; reflexivity.
Qed.
Lemma PrivateUseIter_next_mended {M} n it :
  100 + length (it_data it) <= n -> length (it_data it) + 4 <= M ->
  call M mended n (VPath ["PrivateUseIter"; "next"]) [viter_of "PrivateUseIter" it] =
  lift_step (voption (vtag PrivateUseSubtagT)) (viter_of "PrivateUseIter") (PrivateUseIter_next it).
Proof. unfold PrivateUseIter_next. segment_next_mended. Qed.
Lemma ExtensionIter_next_mended {M} n it :
  100 + length (it_data it) <= n -> length (it_data it) + 4 <= M ->
  call M mended n (VPath ["ExtensionIter"; "next"]) [viter_of "ExtensionIter" it] =
  lift_step (voption (vtag ExtensionSubtagT)) (viter_of "ExtensionIter") (ExtensionIter_next it).
Proof. unfold ExtensionIter_next. segment_next_mended. Qed.
Lemma LanguageExtensionIter_next_mended {M} n it :
  100 + length (it_data it) <= n -> length (it_data it) + 4 <= M ->
  call M mended n (VPath ["LanguageExtensionIter"; "next"]) [viter_of "LanguageExtensionIter" it] =
  lift_step (voption (vtag ExtendedLangTagT)) (viter_of "LanguageExtensionIter") (LanguageExtensionIter_next it).
Proof. unfold LanguageExtensionIter_next. segment_next_mended. Qed.
Lemma ExtensionsIter_next_mended {M} n it :
  250 + 2 * length (it_data it) <= n -> length (it_data it) + 4 <= M ->
  call M mended n (VPath ["ExtensionsIter"; "next"]) [viter_of "ExtensionsIter" it] =
  lift_step (voption (vtag ExtensionT)) (viter_of "ExtensionsIter") (guarded_ExtensionsIter_next it).
Proof.
  destruct it as [s o]. intros Hn HM. fuel n 30. unfold guarded_ExtensionsIter_next, viter_of.
  cbn [it_data it_offset] in *. enter. run. unfold lift_step.
  destruct (o <? length s) eqn:?; run; [|reflexivity].
  erewrite (find_list_end_mended _ s (o + 2) _ (fun _ segment => new_is_ok ExtensionSubtag segment) (120 + length s)).
  - unfold lift. destruct (find_list_end_guarded s (o + 2) _) as [x| |] eqn:?; run; [|reflexivity|reflexivity].
    destruct (slice s o x) eqn:?; [|reflexivity|reflexivity]. run. reflexivity.
  - intros k i sub Hk Hs. fuel k 20. enter. run. is_ok_mended ExtensionSubtagT.
  - reflexivity.
  - lia.
  - lia.
Qed.
Lemma VariantsIter_next_mended {M} n it :
  100 + length (v_data it) <= n -> length (v_data it) + 4 <= M ->
  call M mended n (VPath ["VariantsIter"; "next"]) [vviter it] =
  lift_step (voption (vtag VariantT)) vviter (VariantsIter_next it).
Proof.
  destruct it as [s o e]. intros Hn HM. fuel n 30. unfold VariantsIter_next, vviter. cbn [v_data v_offset v_end] in *.
  enter. run. unfold lift_step.
  destruct (o <? e) eqn:?; run; [|reflexivity].
  rewrite find_segment_end_mended by lia. unfold lift.
  destruct (find_segment_end s o) as [x| |] eqn:?; [|reflexivity|reflexivity]. run.
  destruct (slice s o x) eqn:?; [|reflexivity|reflexivity]. run. reflexivity.
Qed.
Lemma Variants_first_mended {M} n s :
  160 + length s <= n -> length s + 4 <= M ->
  call M mended n (VPath ["Variants"; "first"]) [vtag VariantsT s] = lift (voption (vtag VariantT)) (Variants_first s).
Proof.
  intros Hn HM. fuel n 40. enter. run. rewrite Variants_iter_mended by lia. run.
  rewrite VariantsIter_next_mended by (cbn; lia). unfold lift_step, lift, Variants_first.
  destruct (VariantsIter_next (Variants_iter s)) as [[]| |]; run; reflexivity.
Qed.
Lemma Extensions_get_mended {M} n s c :
  200 + 2 * length s <= n -> length s + 4 <= M ->
  call M mended n (VPath ["Extensions"; "get"]) [vtag ExtensionsT s; vsingleton c] =
  lift (voption (vtag ExtensionT)) (guarded_Extensions_get s c).
Proof.
  intros Hn HM. fuel n 50. enter. run. unfold guarded_Extensions_get, lift. rewrite finish.
  match goal with
  | |- context [andthen (eval M mended _ (_ :: _ :: ?e) (EWhile ?w ?b)) ?k] =>
    assert (forall g i st n, 140 + length s + g <= n -> length s - i <= g -> i <= length s ->
      ends (andthen (eval M mended n (("starting", VBool st) :: ("i", VNat i) :: e) (EWhile w b)) k) =
      omap (fun v => Some (voption (vtag ExtensionT) v)) (guarded_Extensions_get_loop g s c i st)) as L
  end.
  { induction g as [|g IH]; intros i st n Hn' Hg Hi; fuel n 40; cbn [guarded_Extensions_get_loop]; unroll.
    - destruct (i + 1 <? length s) eqn:E; [apply Nat.ltb_lt in E; lia|]. run. reflexivity.
    - destruct (i + 1 <? length s) eqn:E; run; [|reflexivity].
      destruct st; run.
      + destruct (index s i) as [b| |] eqn:?; [|reflexivity|reflexivity]. run.
        destruct (beq b c); run.
        * destruct (index s (i + 1)) as [b'| |] eqn:?; [|reflexivity|reflexivity]. run.
          destruct (beq b' dash) eqn:B; unfold dash in B; rewrite B; run.
          -- erewrite (find_list_end_mended _ s (i + 2) _ (fun _ segment => Ret (1 <? length segment)) 20).
             ++ unfold lift. destruct (find_list_end_guarded s (i + 2) _) as [x| |] eqn:?; run; [|reflexivity|reflexivity].
                destruct (slice s i x); [|reflexivity|reflexivity]. run. reflexivity.
             ++ intros k o sub Hk Hs. fuel k 20. enter. run. reflexivity.
             ++ reflexivity.
             ++ lia.
             ++ lia.
          -- apply IH; apply Nat.ltb_lt in E; lia.
        * apply IH; apply Nat.ltb_lt in E; lia.
      + destruct (index s i) as [b| |] eqn:?; [|reflexivity|reflexivity]. run.
        destruct (beq b dash) eqn:B; unfold dash in B; rewrite B; run; apply IH; apply Nat.ltb_lt in E; lia. }
  rewrite (L (length s)) by lia. now destruct (guarded_Extensions_get_loop (length s) s c 0 true).
Qed.
Lemma Extensions_iter_extension_mended {M} n s c :
  240 + 2 * length s <= n -> length s + 4 <= M ->
  call M mended n (VPath ["Extensions"; "iter_extension"]) [vtag ExtensionsT s; vsingleton c] =
  lift (viter_of "ExtensionIter") (guarded_Extensions_iter_extension s c).
Proof.
  intros Hn HM. fuel n 30. enter. run. rewrite Extensions_get_mended by lia. unfold guarded_Extensions_iter_extension, lift.
  destruct (guarded_Extensions_get s c) as [[e|]| |]; run; reflexivity.
Qed.
Lemma Grandfathered_language_mended {M} n g :
  20 <= n ->
  call M mended n (VPath ["GrandfatheredLangTag"; "language"]) [vgrandfathered g] =
  Ret (voption (vtag LanguageT) (Grandfathered_language g), []).
Proof. intro Hn. fuel n 20. unfold vgrandfathered. destruct g; cbn [grandfathered_name]; enter; run; reflexivity. Qed.
Lemma LangTag_language_mended {M} n s :
  300 + 2 * length s <= n -> length s + 4 <= M ->
  call M mended n (VPath ["LangTag"; "language"]) [vtag LangTagT s] = lift (voption (vtag LanguageT)) (guarded_LangTag_language s).
Proof.
  intros Hn HM. fuel n 30. enter. run. constructs_mended NormalLangTagT. unfold guarded_LangTag_language, new, lift.
  destruct (validate Langtag s) as [[]| |]; run; try reflexivity.
  - retag; rewrite NormalLangTag_language_mended by lia. unfold lift. destruct (guarded_language s); run; reflexivity.
  - rewrite (Grandfathered_new_mended _ s VStr) by (auto; lia). unfold lift.
    destruct (Grandfathered_new s) as [[g|]| |]; run; try reflexivity.
    rewrite Grandfathered_language_mended by lia. destruct (Grandfathered_language g); run; reflexivity.
Qed.
Lemma LangTag_script_mended {M} n s :
  400 + 2 * length s <= n -> length s + 4 <= M ->
  call M mended n (VPath ["LangTag"; "script"]) [vtag LangTagT s] = lift (voption (vtag ScriptT)) (guarded_LangTag_script s).
Proof. unfold guarded_LangTag_script. of_normal_mended (@NormalLangTag_script_mended M) guarded_script. Qed.
Lemma LangTag_region_mended {M} n s :
  400 + 2 * length s <= n -> length s + 4 <= M ->
  call M mended n (VPath ["LangTag"; "region"]) [vtag LangTagT s] = lift (voption (vtag RegionT)) (guarded_LangTag_region s).
Proof. unfold guarded_LangTag_region. of_normal_mended (@NormalLangTag_region_mended M) guarded_region. Qed.
Lemma LangTag_variants_mended {M} n s :
  400 + 2 * length s <= n -> length s + 4 <= M ->
  call M mended n (VPath ["LangTag"; "variants"]) [vtag LangTagT s] = lift (vtag VariantsT) (guarded_LangTag_variants s).
Proof. unfold guarded_LangTag_variants. of_normal_mended (@NormalLangTag_variants_mended M) guarded_variants. Qed.
Lemma LangTag_extensions_mended {M} n s :
  500 + 2 * length s <= n -> length s + 4 <= M ->
  call M mended n (VPath ["LangTag"; "extensions"]) [vtag LangTagT s] = lift (vtag ExtensionsT) (guarded_LangTag_extensions s).
Proof. unfold guarded_LangTag_extensions. of_normal_mended (@NormalLangTag_extensions_mended M) guarded_extensions. Qed.
Lemma LangTag_private_use_mended {M} n s :
  600 + 2 * length s <= n -> length s + 4 <= M ->
  call M mended n (VPath ["LangTag"; "private_use"]) [vtag LangTagT s] =
  lift (voption (vtag PrivateUseT)) (guarded_LangTag_private_use s).
Proof. unfold guarded_LangTag_private_use. of_normal_mended (@NormalLangTag_private_use_mended M) guarded_private_use. Qed.
Lemma LangTag_private_use_subtags_mended {M} n s :
  700 + 2 * length s <= n -> length s + 4 <= M ->
  call M mended n (VPath ["LangTag"; "private_use_subtags"]) [vtag LangTagT s] =
  lift (viter_of "PrivateUseIter") (guarded_LangTag_private_use_subtags s).
Proof.
  intros Hn HM. fuel n 40. enter. run. rewrite LangTag_private_use_mended by lia. unfold guarded_LangTag_private_use_subtags, lift.
  destruct (guarded_LangTag_private_use s) as [[p|]| |]; run; try reflexivity.
Qed.
Lemma Typed_language_mended {M} n t :
  300 + 2 * length (match t with TNormal s => s | _ => [] end) <= n ->
  match t with TNormal s => length s + 4 <= M | _ => True end ->
  call M mended n (VPath ["TypedLangTag"; "language"]) [vtyped t] = lift (voption (vtag LanguageT)) (guarded_Typed_language t).
Proof.
  intros Hn HM. fuel n 40. destruct t as [s|s|g]; cbn [vtyped guarded_Typed_language]; enter; run.
  - retag; rewrite NormalLangTag_language_mended by lia. unfold lift. destruct (guarded_language s); run; reflexivity.
  - reflexivity.
  - rewrite Grandfathered_language_mended by lia. unfold lift. destruct (Grandfathered_language g); run; reflexivity.
Qed.
