(** Property C76: grammar.rs has no dead arm, and all its automata but one are as small as can be. *)
From Verif Require Import Base GrammarRs Validate Newtypes Spec Observe Accept Grammar PropsFile PropsUnique.
From Verif Require Import RustText RustSyntax RustEval RustProgram RustRefine RustGrammar RustValidate RustSays PropsSource PropsGenerated.
From Verif Require Import Abnf AbnfText AbnfEquiv GrammarArms.
Import Base.
Open Scope string_scope.
Open Scope nat_scope.
Open Scope list_scope.

(** The text [u], pushed byte by byte, brings a new automaton of the type [x] of grammar.rs to the state [q]. *)
Inductive pushed (x : string) : bytes -> N -> Prop :=
| pushed_nothing : forall q, runs [x; "new"] [] (Ret (auto x q, [])) -> pushed x [] q
| pushed_more : forall u q b q', pushed x u q ->
    runs [x; "push"] [auto x q; VChar (code b)] (Ret (VBool true, [auto x q'])) -> pushed x (u ++ [b]) q'.

Lemma after_pushed ty s : forall u q q', pushed (grammar_type ty) u q -> (q < states ty)%N ->
  after (automaton_of ty) q s = Some q' -> pushed (grammar_type ty) (u ++ s) q'.
Proof.
  induction s as [|b s IH]; intros u q q' P B; cbn [after].
  - intros [= <-]. now rewrite app_nil_r.
  - destruct (push (automaton_of ty) q (code b)) as [p|] eqn:E; [|discriminate]. intros A.
    replace (u ++ b :: s) with ((u ++ [b]) ++ s) by (now rewrite <- app_assoc). apply (IH _ p); [|..|exact A].
    + eapply pushed_more; [exact P|]. pose proof (says_runs _ _ _ (says_push ty q (code b) B)) as R. rewrite E in R. exact R.
    + destruct (automata ty) as (_ & K & _). rewrite !N2Nat.id in K. exact (K q _ _ B E).
Qed.
Lemma start_pushed ty s q : after (automaton_of ty) 0 s = Some q -> pushed (grammar_type ty) s q.
Proof.
  intros A. apply (after_pushed ty s [] 0%N); [apply pushed_nothing; exact (says_runs _ _ _ (says_automaton_new ty))|
    destruct ty; reflexivity|exact A].
Qed.
Lemma accepts_runs ty s : accepts (automaton_of ty) s = true ->
  runs [grammar_type ty; "validate_bytes"] [VBytes s] (Ret (VBool true, [])).
Proof.
  intros A. pose proof (says_runs _ _ _ (says_validate_bytes ty s)) as R. rewrite validate_run in R by apply automaton_high.
  unfold lift in R. cbn [bind] in R. rewrite A in R. exact R.
Qed.

(** * Every arm is used *)

(** [table_of] reads the arms [q => match token { lo..=hi | .. => n, .. }] of the function [push] of a type of grammar.rs
    as the list of [(q, [([(lo, hi); ..], n); ..])]; it is [None] if there were anything else in [push].  Each character of each
    pattern of each arm takes its arm, on the way of a text that is accepted. *)
Theorem C76_arms : forall ty, exists t, table_of (grammar_type ty) = Some t /\
  forall q r rs n lo hi, In (q, r) t -> In (rs, n) r -> In (lo, hi) rs -> (lo <= hi)%N /\
  forall c, (lo <= c)%N -> (c <= hi)%N -> exists u b v, code b = c /\
    pushed (grammar_type ty) u q /\
    runs [grammar_type ty; "push"] [auto (grammar_type ty) q; VChar c] (Ret (VBool true, [auto (grammar_type ty) n])) /\
    runs [grammar_type ty; "validate_bytes"] [VBytes (u ++ b :: v)] (Ret (VBool true, [])).
Proof.
  intros ty. exists (the_table ty). split; [exact (the_table_text ty)|]. intros q r rs n lo hi I1 I2 I3.
  split; [exact (proj1 (arm_on_a_way ty q r rs n lo hi lo I1 I2 I3))|]. intros c L H.
  destruct (proj2 (arm_on_a_way ty q r rs n lo hi c I1 I2 I3) L H) as (B & u & b & v & C & U & P & V).
  exists u, b, v. split; [exact C|]. split; [now apply start_pushed|]. split.
  - pose proof (says_runs _ _ _ (says_push ty q c B)) as R. rewrite P in R. exact R.
  - now apply accepts_runs.
Qed.
(** So is each state in the list of [is_accepting]. *)
Theorem C76_accepting : forall ty, exists l, accepting_of (grammar_type ty) = Some l /\ NoDup l /\
  forall q, In q l -> exists u, pushed (grammar_type ty) u q /\
    runs [grammar_type ty; "is_accepting"] [auto (grammar_type ty) q] (Ret (VBool true, [])) /\
    runs [grammar_type ty; "validate_bytes"] [VBytes u] (Ret (VBool true, [])).
Proof.
  intros ty. exists (the_accepting ty). split; [exact (the_accepting_text ty)|]. split; [apply states_once|]. intros q I.
  destruct (accepting_on_a_way ty q I) as (B & A & u & U & V). exists u. split; [now apply start_pushed|].
  split; [|now apply accepts_runs]. pose proof (says_runs _ _ _ (says_is_accepting ty q B)) as R. now rewrite A in R.
Qed.
(** No state has two arms, and in a state no character has two patterns: the order of the arms does not matter. *)
Theorem C76_once : forall ty, exists t, table_of (grammar_type ty) = Some t /\ NoDup (map fst t) /\
  forall q r, In (q, r) t -> forall i j x y c,
    nth_error (flat_map fst r) i = Some x -> nth_error (flat_map fst r) j = Some y ->
    (fst x <= c <= snd x)%N -> (fst y <= c <= snd y)%N -> i = j.
Proof.
  intros ty. exists (the_table ty). split; [exact (the_table_text ty)|]. split; [apply states_once|].
  intros q r I. exact (patterns_once ty q r I).
Qed.

(** * The number of states *)

(** [k] states are needed to read the language [L] byte by byte, whatever the states are; and are enough. *)
Definition reader {X} (states : list X) (start : X) (step : X -> byte -> option X) (acc : X -> bool) (L : bytes -> Prop) : Prop :=
  In start states /\ (forall x b y, In x states -> step x b = Some y -> In y states) /\
  forall s, reads step acc start s = true <-> L s.
Definition fewest (L : bytes -> Prop) (k : nat) : Prop :=
  (forall X (states : list X) start step acc, reader states start step acc L -> k <= length states) /\
  exists X (states : list X) start step acc, reader states start step acc L /\ length states = k.

(** The states of an automaton of grammar.rs: where it starts, and those at the right of an arm. *)
Definition states_in (t : table_t) : list N := nodup N.eq_dec (0%N :: flat_map (fun x => map snd (snd x)) t).

Lemma accepts_derived ty s : accepts (automaton_of ty) s = true <-> derived_from grammar_abnf (rule_name ty) s.
Proof.
  pose proof (rules_decided ty s) as D. unfold new_of in D. rewrite new_run in D by apply automaton_high.
  destruct (accepts (automaton_of ty) s), D as [[D1 D2]|[D1 D2]]; split; intros X; try exact D2; try reflexivity; try discriminate;
    contradiction.
Qed.
Lemma kept_fewest ty : fewest (derived_from grammar_abnf (rule_name ty)) (length (kept ty)).
Proof.
  split.
  - intros X l start step acc (S & C & R). apply (states_needed_by ty l start step acc S C). intros s.
    apply eq_true_iff_eq. now rewrite R, accepts_derived.
  - destruct (kept_machine ty) as (S & C & R). exists N, (kept ty), 0%N, (kept_step ty), (is_accepting (automaton_of ty)).
    split; [|reflexivity]. split; [exact S|]. split; [exact C|]. intros s. now rewrite R, accepts_derived.
Qed.
Lemma state_counts : map (fun ty => length (states_in (the_table ty))) new_types =
  [183; 11; 9; 72; 20; 4; 12; 4; 5; 5; 13; 14; 11; 9; 13].
Proof. vm_compute. reflexivity. Qed.

(** Fourteen automata of grammar.rs have as few states as their language allows. *)
Theorem C76_fewest : forall ty, ty <> LangTagT -> exists t, table_of (grammar_type ty) = Some t /\
  fewest (derived_from grammar_abnf (rule_name ty)) (length (states_in t)).
Proof.
  intros ty N. exists (the_table ty). split; [exact (the_table_text ty)|].
  replace (length (states_in (the_table ty))) with (length (kept ty)); [exact (kept_fewest ty)|].
  destruct ty; try (now destruct N); vm_compute; reflexivity.
Qed.
(** The regular grandfathered tags are normal tags, so that grammar.abnf need not list them. *)
Theorem C76_regular : forall s, derived_from grammar_abnf "regular" s -> derived_from grammar_abnf "langtag" s.
Proof.
  intros s D. apply file_regular in D. apply regular_normal in D. change "langtag" with (rule_name NormalLangTagT).
  destruct (rules_decided NormalLangTagT s) as [[_ X]|[X _]]; [exact X|]. unfold accepted in D. congruence.
Qed.
(** [LanguageTag] has 183, of which 136 are enough. *)
Theorem C76_language_tag : exists t, table_of "grammar::LanguageTag" = Some t /\ length (states_in t) = 183 /\
  fewest (derived_from grammar_abnf "Language-Tag") 136.
Proof.
  exists (the_table LangTagT). split; [exact (the_table_text LangTagT)|]. split; [vm_compute; reflexivity|].
  exact (kept_fewest LangTagT).
Qed.
Print Assumptions C76_arms.
Print Assumptions C76_accepting.
Print Assumptions C76_once.
Print Assumptions C76_fewest.
Print Assumptions C76_regular.
Print Assumptions C76_language_tag.

(** The arms of the state 0 of [Region], in the text; "F" takes the second, on the way of "Fr".  The states of [LanguageTag]
    after two texts are distinct and accept the same. *)
Example C76_case :
  (exists t r, table_of "grammar::Region" = Some t /\ In (0%N, r) t /\ r = [([(48, 57)], 1); ([(65, 90); (97, 122)], 2)]%N /\
    states_in t = [0; 1; 2; 3; 4]%N) /\
  after Region 0 (bs "F") = Some 2%N /\ accepts Region (bs "Fr") = true /\ accepts Region (bs "F") = false /\
  after LanguageTag 0 (bs "ar") <> after LanguageTag 0 (bs "aa") /\
  derived_from grammar_abnf "regular" (bs "ART-lojban") /\
  forall v, accepts LanguageTag (bs "ar" ++ v) = accepts LanguageTag (bs "aa" ++ v).
Proof.
  split; [|split; [|split; [|split; [|split; [|split]]]]]; try (vm_compute; congruence).
  - do 2 eexists. split; [vm_compute; reflexivity|]. split; [left; reflexivity|]. split; vm_compute; reflexivity.
  - apply file_regular. exists "art-lojban". split; [cbn; tauto|reflexivity].
  - intros v. unfold accepts. rewrite (after_run LanguageTag (bs "ar") initial 11%N v), (after_run LanguageTag (bs "aa") initial 10%N v)
      by (vm_compute; reflexivity).
    change LanguageTag with (automaton_of LangTagT). rewrite <- !kept_reads by reflexivity. reflexivity.
Qed.
