(** [validate_bytes], [validate_str] and [new], as the source text gives them. *)
From Verif Require Import Base Validate Newtypes Spec Observe Accept Terminate NoOverflow RustSyntax RustEval RustProgram RustRefine RustGrammar.
Open Scope string_scope.
Open Scope nat_scope.
Open Scope list_scope.

(** * 1. [validate_bytes] *)

(** How the loop of [validate_bytes] ends, from the state [q] at [i]. *)
Definition loop_ends (A : automaton) (x : string) (k : nat) (e : env) (f : nat) (s : bytes) (i : nat) (q : N) (r : res) : Prop :=
  exists b, validate_loop decode_utf8_char A f s i q = Ret b /\
  ((exists e', r = Ret (e', Returned (VBool false)) /\ length e' = 2 + length e /\ b = false) \/
   (exists i' q', r = Ret (("automaton", auto x q') :: ("i", VNat i') :: e, Done VUnit) /\
                  (q' < N.of_nat k)%N /\ b = is_accepting A q')).

Lemma loop_enter {A} (r r' : A) (Q : A -> Prop) : r = r' -> Q r' -> Q r.
Proof. now intros ->. Qed.

(** The function [validate_bytes], the same in the fifteen automata, and the function [new]. *)
Definition function (x m : string) : fn :=
  match resolve crate [x; m] with TgFn _ f => f | _ => Fn "" NoSelf [] None (EBool false) end.
Definition validate_fn : fn := Eval vm_compute in function "grammar::Script" "validate_bytes".
Definition validate_str_fn : fn := Eval vm_compute in function "grammar::Script" "validate_str".
Definition new_fn : fn := Eval vm_compute in function "grammar::Script" "new".

Lemma validate_call {M} x A k n s :
  automaton_src x A k ->
  String.eqb x "" = false ->
  resolve crate [x; "new"] = TgFn x new_fn ->
  resolve crate [x; "validate_bytes"] = TgFn x validate_fn ->
  (forall l, method_path crate (VStruct x l) "push" = Some [x; "push"]) ->
  (forall l, method_path crate (VStruct x l) "is_accepting" = Some [x; "is_accepting"]) ->
  muts crate (VPath [x; "push"]) = [true; false] ->
  muts crate (VPath [x; "new"]) = [] ->
  muts crate (VPath [x; "is_accepting"]) = [false] ->
  80 + length s <= n -> length s + 4 <= M ->
  call M crate n (VPath [x; "validate_bytes"]) [VBytes s] = lift VBool (validate A s).
Proof.
  intros (K0 & K1 & K2 & K3) Rx Rn Rv Mp Ma Up Un Ua Hn HM. fuel n 50.
  unfold new_fn in Rn. unfold validate_fn in Rv.
  enter. run. enter. run. unfold validate, validate_with, lift.
  lazymatch goal with
  | |- context [eval M crate _ (("automaton", VStruct x _) :: ("i", _) :: ?e) (EWhile ?c ?b)] =>
    assert (forall f i q n, 30 + f <= n -> length s - i <= f -> (q < N.of_nat k)%N ->
      loop_ends A x k e f s i q (eval M crate n (("automaton", auto x q) :: ("i", VNat i) :: e) (EWhile c b))) as L
  end.
  { clear Hn Rv Rn. induction f as [|f IH]; intros i q n Hn Hf Hq; fuel n 30;
      unfold loop_ends; cbn [validate_loop]; unfold auto.
    - eapply (loop_enter (eval M crate _ _ _)); [unroll; reflexivity|]. cbv beta.
      destruct (i <? length s) eqn:E; [apply Nat.ltb_lt in E; lia|].
      exists (is_accepting A q). split; [reflexivity|]. right. exists i, q. repeat split; auto.
    - destruct (i <? length s) eqn:E.
      2:{ eapply (loop_enter (eval M crate _ _ _)); [unroll; rewrite E; run; reflexivity|].
          exists (is_accepting A q). split; [reflexivity|]. right. exists i, q. repeat split; auto. }
      destruct (decode_utf8_char s i) as [[c len]|] eqn:D.
      2:{ exists false. split; [reflexivity|]. left.
          eexists. split; [unroll; rewrite E; run; rewrite D; run; reflexivity|split; reflexivity]. }
      destruct (push A q c) as [q'|] eqn:P.
      2:{ exists false. split; [reflexivity|]. left.
          eexists. split; [unroll; rewrite E; run; rewrite D; run|].
          - fold (auto x q). rewrite K2, P by (auto; lia). run. reflexivity.
          - split; reflexivity. }
      pose proof (decode_len _ _ _ _ D) as DL.
      eapply (loop_enter (eval M crate _ _ _)).
      { unroll. rewrite E. run. rewrite D. run. fold (auto x q). rewrite K2, P by (auto; lia). run. reflexivity. }
      apply decode_advances in D. apply Nat.ltb_lt in E.
      apply IH; [lia|lia|]. eapply K1; eauto. }
  destruct (L (length s) 0 0%N (48 + m) ltac:(lia) ltac:(lia) K0)
    as (b & Lb & [(e' & Le & Ll & ->)|(i' & q' & Le & Hq & ->)]);
    unfold auto in Le; rewrite Le; unfold initial; rewrite Lb; [reflexivity|].
  run. fold (auto x q'). rewrite K3 by (auto; lia). run. reflexivity.
Qed.

(** The name of the automaton of each type. *)
Definition automaton_name (ty : newtype) : string :=
  match ty with
  | LangTagT => "LanguageTag"
  | PrivateUseT => "Privateuse"
  | PrivateUseSubtagT => "PrivateuseSubtag"
  | NormalLangTagT => "Langtag"
  | LanguageT => "Language"
  | PrimaryLanguageT => "Primary"
  | LanguageExtensionT => "Extlang"
  | ExtendedLangTagT => "ExtlangTag"
  | ScriptT => "Script"
  | RegionT => "Region"
  | VariantT => "Variant"
  | VariantsT => "Variants"
  | ExtensionT => "Extension"
  | ExtensionSubtagT => "ExtensionSubtag"
  | ExtensionsT => "Extensions"
  end.
Definition grammar_type (ty : newtype) : string := ("grammar::" ++ automaton_name ty)%string.

Theorem validate_bytes_src {M} ty n s :
  80 + length s <= n -> length s + 4 <= M ->
  call M crate n (VPath [grammar_type ty; "validate_bytes"]) [VBytes s] = lift VBool (validate (automaton_of ty) s).
Proof.
  destruct ty; intros Hn HM;
  [ eapply validate_call; [exact LanguageTag_src|..]
  | eapply validate_call; [exact Privateuse_src|..]
  | eapply validate_call; [exact PrivateuseSubtag_src|..]
  | eapply validate_call; [exact Langtag_src|..]
  | eapply validate_call; [exact Language_src|..]
  | eapply validate_call; [exact Primary_src|..]
  | eapply validate_call; [exact Extlang_src|..]
  | eapply validate_call; [exact ExtlangTag_src|..]
  | eapply validate_call; [exact Script_src|..]
  | eapply validate_call; [exact Region_src|..]
  | eapply validate_call; [exact Variant_src|..]
  | eapply validate_call; [exact Variants_src|..]
  | eapply validate_call; [exact Extension_src|..]
  | eapply validate_call; [exact ExtensionSubtag_src|..]
  | eapply validate_call; [exact Extensions_src|..] ]; first [exact Hn | exact HM | intros; vm_compute; reflexivity].
Qed.

Theorem validate_str_src {M} ty n s :
  100 + length s <= n -> length s + 4 <= M ->
  call M crate n (VPath [grammar_type ty; "validate_str"]) [VStr s] = lift VBool (validate (automaton_of ty) s).
Proof.
  intros Hn HM. assert (forall m, 80 + length s <= m -> call M crate m (VPath [grammar_type ty; "validate_bytes"]) [VBytes s] =
    lift VBool (validate (automaton_of ty) s)) as V by (intros; now apply validate_bytes_src).
  fuel n 20. destruct ty; cbv [grammar_type automaton_name append] in *; enter; run; rewrite V by lia;
    unfold lift; destruct (validate _ s); reflexivity.
Qed.

(** * 2. [new], generated by str_newtype *)

(** The name of each type. *)
Definition type_of (ty : newtype) : string :=
  match ty with
  | LangTagT => "LangTag"
  | PrivateUseT => "PrivateUse"
  | PrivateUseSubtagT => "PrivateUseSubtag"
  | NormalLangTagT => "NormalLangTag"
  | LanguageT => "Language"
  | PrimaryLanguageT => "PrimaryLanguage"
  | LanguageExtensionT => "LanguageExtension"
  | ExtendedLangTagT => "ExtendedLangTag"
  | ScriptT => "Script"
  | RegionT => "Region"
  | VariantT => "Variant"
  | VariantsT => "Variants"
  | ExtensionT => "Extension"
  | ExtensionSubtagT => "ExtensionSubtag"
  | ExtensionsT => "Extensions"
  end.
(** A value of such a type. *)
Definition vtag (ty : newtype) (s : bytes) : value := tuple1 (type_of ty) (VStr s).
(** A [Result]; the error holds the input, a string or bytes. *)
Definition vresult (ty : newtype) (w : bytes -> value) (r : result bytes bytes) : value :=
  match r with
  | Ok s => okv (vtag ty s)
  | Err s => errv (tuple1 ("Invalid" ++ type_of ty) (w s))
  end.

Lemma new_resolves ty : resolve crate [type_of ty; "new"] = TgNew (type_of ty) (automaton_name ty).
Proof. destruct ty; vm_compute; reflexivity. Qed.

Theorem new_src {M} ty n s :
  100 + length s <= n -> length s + 4 <= M ->
  call M crate n (VPath [type_of ty; "new"]) [VStr s] = lift (vresult ty VStr) (new_of ty s) /\
  call M crate n (VPath [type_of ty; "new"]) [VBytes s] = lift (vresult ty VBytes) (new_of ty s).
Proof.
  intros Hn HM. fuel n 10. unfold new_of, new, lift.
  assert (forall w, (w = VStr \/ w = VBytes) -> call M crate (10 + m) (VPath [type_of ty; "new"]) [w s] =
    (let! r := validate (automaton_of ty) s in
     Ret (if r then okv (vtag ty s) else errv (tuple1 ("Invalid" ++ type_of ty)%string (w s)), []))) as G.
  { intros w [-> | ->]; rewrite call_eq; cbn [call_step]; rewrite new_resolves;
      fold (grammar_type ty); rewrite validate_bytes_src by lia; unfold lift;
      destruct (validate _ s) as [[]| |]; reflexivity. }
  rewrite (G VStr), (G VBytes) by auto.
  destruct (validate (automaton_of ty) s) as [[]| |]; split; reflexivity.
Qed.
