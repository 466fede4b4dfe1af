(** Property C75: the files that are compiled, run with the automata that a generator writes from the text of
    grammar.abnf; and with those it writes from any other text. *)
From Verif Require Import Base GrammarRs Validate Utils Grandfathered Normal LangTag Newtypes Derived Spec Observe
  Grammar Samples PropsFile PropsAccess PropsSource.
From Verif Require Import RustText RustSyntax RustEval RustProgram RustRefine RustGrammar RustValidate RustNormal RustAccess
  RustTags RustLib RustSays RustOracle RustGenerated PropsGenerated.
From Verif Require Import Abnf AbnfText AbnfEquiv AbnfMachine.
Open Scope string_scope.
Open Scope nat_scope.
Open Scope list_scope.

(** Every rule that [text] refers to is there, and none refers to itself, not even through others. *)
Definition no_recursion (text : bytes) : Prop := exists G, read_abnf text = Some G /\ layered (G ++ core_rules).

(** * The generator *)

(** For every ABNF text without recursion, the automaton that the generator calls [a] decides the rule that [a] names. *)
Theorem C75_generator : forall text a n, no_recursion text -> called text a n ->
  forall s, written text a s = true <-> derived_from text n s.
Proof. intros text a n L C. exact (written_right text a n C L). Qed.

(** grammar.abnf is such a text, and its fifteen exported rules are called as lib.rs and the types expect. *)
Lemma file_layered : no_recursion grammar_abnf.
Proof. exists file_grammar. split; [exact file_read|]. apply layers_found_layered. vm_compute. reflexivity. Qed.
Lemma file_called ty : called grammar_abnf (pascal (rule_name ty)) (rule_name ty).
Proof. exists file_grammar. split; [exact file_read|]. destruct ty; vm_compute; reflexivity. Qed.
Theorem C75_right : no_recursion grammar_abnf /\ right (written grammar_abnf).
Proof.
  split; [exact file_layered|]. intros ts x s T I. destruct C65_exported as (ts' & P & T' & _ & E & _ & _).
  rewrite T in T'. injection T' as <-. rewrite E in I. cbn [tl] in I. apply in_map_iff in I as (ty & <- & _).
  exact (C75_generator _ _ _ file_layered (file_called ty) s).
Qed.

(** * The crate as it is compiled *)

(** The thirteen files and grammar.abnf do what all fourteen Rust files do: grammar.rs is not needed. *)
Theorem C75_same : forall f args r, plain_call f args = true -> r <> OutOfFuel ->
  (runs f args r <-> runs_with (written grammar_abnf) f args r).
Proof. intros f args r. exact (C65_same _ (proj2 C75_right) f args r). Qed.

(** Had grammar.abnf another text, the constructors would follow that text. *)
Lemma new_with V ty s w : w = VStr \/ w = VBytes ->
  runs_with V [type_of ty; "new"] [w s]
    (Ret (if V (pascal (rule_name ty)) s then okv (vtag ty s) else errv (tuple1 ("Invalid" ++ type_of ty) (w s)), [])).
Proof.
  intros W. destruct C65_exported as (ts & P & T & L & E & K & _). destruct (K ty) as [_ N].
  exists P. split; [exact L|]. intros M _ _. exists 1. intros [|n] B; [lia|]. cbn [call_with]. unfold call_step_with.
  rewrite N. destruct W as [-> | ->]; unfold vtag; now destruct (V _ s).
Qed.
Theorem C75_new : forall text ty s w, no_recursion text -> called text (pascal (rule_name ty)) (rule_name ty) ->
  w = VStr \/ w = VBytes ->
  (derived_from text (rule_name ty) s -> runs_with (written text) [type_of ty; "new"] [w s] (Ret (okv (vtag ty s), []))) /\
  (~ derived_from text (rule_name ty) s ->
   runs_with (written text) [type_of ty; "new"] [w s] (Ret (errv (tuple1 ("Invalid" ++ type_of ty) (w s)), []))).
Proof.
  intros text ty s w L C W. pose proof (C75_generator text _ _ L C s) as G. pose proof (new_with (written text) ty s w W) as R.
  split; intros D.
  - rewrite (proj2 G D) in R. exact R.
  - destruct (written text (pascal (rule_name ty)) s) eqn:X; [|exact R]. exfalso. apply D, G. reflexivity.
Qed.
Print Assumptions C75_generator.
Print Assumptions C75_right.
Print Assumptions C75_same.
Print Assumptions C75_new.

(** The crate run with the automata written from grammar.abnf; a smaller text, with which [Script::new] accepts two or three
    digits or "Latn"; and a text with recursion, of which the generator makes nothing. *)
Definition small_abnf : bytes := bs "script = 2*3hex / ""Latn""" ++ [newline] ++ bs "hex = DIGIT ; digits only" ++ [newline].
Definition loop_abnf : bytes := bs "script = ""a"" script / ""b""" ++ [newline].
Example C75_case :
  call_with 1000 (written grammar_abnf) compiled 300 (VPath ["LangTag"; "new"]) [VStr (bs "fr-Latn")] = Ret (okv (vtag LangTagT (bs "fr-Latn")), []) /\
  call_with 1000 (written grammar_abnf) compiled 600 (VPath ["LangTag"; "region"]) [vtag LangTagT full_text] = Ret (some (vtag RegionT (bs "IT")), []) /\
  no_recursion small_abnf /\ called small_abnf "Script" "script" /\
  map (written small_abnf "Script") [bs "12"; bs "1"; bs "1234"; bs "lATN"; bs "Cyrl"] = [true; false; false; true; false] /\
  derived_from small_abnf "script" (bs "123") /\
  call_with 1000 (written small_abnf) compiled 300 (VPath ["Script"; "new"]) [VStr (bs "123")] = Ret (okv (vtag ScriptT (bs "123")), []) /\
  called loop_abnf "Script" "script" /\ written loop_abnf "Script" (bs "b") = false /\ derived_from loop_abnf "script" (bs "b").
Proof.
  assert (N : no_recursion small_abnf).
  { eexists. split; [vm_compute; reflexivity|]. apply layers_found_layered. vm_compute. reflexivity. }
  assert (C : called small_abnf "Script" "script") by (eexists; split; vm_compute; reflexivity).
  split; [vm_compute; reflexivity|]. split; [vm_compute; reflexivity|]. split; [exact N|]. split; [exact C|].
  split; [vm_compute; reflexivity|]. split; [apply (C75_generator _ _ _ N C); vm_compute; reflexivity|].
  split; [vm_compute; reflexivity|]. split; [eexists; split; vm_compute; reflexivity|]. split; [vm_compute; reflexivity|].
  eexists. split; [vm_compute; reflexivity|]. eapply d_name; [vm_compute; reflexivity|]. apply d_choice_r, d_quoted. reflexivity.
Qed.
