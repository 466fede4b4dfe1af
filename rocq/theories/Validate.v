(** Model of [validate_bytes] (/repo/src/grammar.rs) and of the checked constructors. *)
From Verif Require Import Base GrammarRs.

(** A generated automaton type: its [push] and [is_accepting] methods.
    grammar.rs:2-8 ([struct LanguageTag], [new]) and the same lines of each other automaton:
    the initial state is always [0u32], see [initial]. *)
Record automaton := Automaton {
  push : N -> N -> option N;
  is_accepting : N -> bool
}.

(** grammar.rs:6-8, [new] (identical in all 15 automata). *)
Definition initial : N := 0%N.

(** [::static_automata::decode_utf8_char(bytes, i)]: [Some (c, len)] for [Ok((c, len))], [None] for [Err(_)]. *)
Definition decoder := bytes -> nat -> option (N * nat).

(** Continuation byte [10xxxxxx]: its six payload bits. *)
Definition cont (s : bytes) (i : nat) : option N :=
  match nth_error s i with
  | Some b => if ((128 <=? code b) && (code b <=? 191))%N then Some (code b - 128)%N else None
  | None => None
  end.

(** The external function [static_automata::decode_utf8_char], not in /repo, called at grammar.rs:1086
    (and in each other [validate_bytes]).  Modelled as a standard UTF-8 decoder (RFC 3629).
    [Accept.v] proves that any decoder with the contract [decoder_ok] gives the same validation. *)
Definition decode_utf8_char : decoder := fun s i =>
  match nth_error s i with
  | None => None
  | Some b =>
    let b0 := code b in
    if (b0 <? 128)%N then Some (b0, 1)
    else if ((194 <=? b0) && (b0 <=? 223))%N then
      match cont s (i + 1) with
      | Some b1 => Some (((b0 - 192) * 64 + b1)%N, 2)
      | None => None
      end
    else if ((224 <=? b0) && (b0 <=? 239))%N then
      match cont s (i + 1), cont s (i + 2) with
      | Some b1, Some b2 =>
        let c := ((b0 - 224) * 4096 + b1 * 64 + b2)%N in
        if ((c <? 2048) || ((55296 <=? c) && (c <=? 57343)))%N then None else Some (c, 3)
      | _, _ => None
      end
    else if ((240 <=? b0) && (b0 <=? 244))%N then
      match cont s (i + 1), cont s (i + 2), cont s (i + 3) with
      | Some b1, Some b2, Some b3 =>
        let c := ((b0 - 240) * 262144 + b1 * 4096 + b2 * 64 + b3)%N in
        if ((c <? 65536) || (1114111 <? c))%N then None else Some (c, 4)
      | _, _, _ => None
      end
    else None
  end.

(** grammar.rs:1082-1097, the loop of [validate_bytes] (identical in all 15 automata). *)
Fixpoint validate_loop (d : decoder) (A : automaton) (fuel : nat) (s : bytes) (i : nat) (state : N)
  : outcome bool :=
  if i <? length s then
    match fuel with
    | O => OutOfFuel
    | S fuel' =>
      match d s i with
      | Some (c, len) =>
        match push A state c with
        | Some state' => validate_loop d A fuel' s (i + len) state'
        | None => Ret false
        end
      | None => Ret false
      end
    end
  else Ret (is_accepting A state).

(** grammar.rs:1082-1097, [validate_bytes], for any decoder. *)
Definition validate_with (d : decoder) (A : automaton) (s : bytes) : outcome bool :=
  validate_loop d A (length s) s 0 initial.

(** grammar.rs:1079-1097, [validate_str] / [validate_bytes]. *)
Definition validate (A : automaton) (s : bytes) : outcome bool :=
  validate_with decode_utf8_char A s.

(** [core::result::Result]. *)
Inductive result (T E : Type) : Type :=
| Ok (t : T)
| Err (e : E).
Arguments Ok {T E} t.
Arguments Err {T E} e.

Definition is_ok {T E} (r : result T E) : bool :=
  match r with Ok _ => true | Err _ => false end.

(** [X::new(input)], generated by the external derive [str_newtype::StrNewType] from
    [#[automaton(..)]] (e.g. lib.rs:69-80): validates the bytes, borrows the input unchanged on success,
    hands it back in the error otherwise.  A value of type [X] is modelled by its bytes. *)
Definition new (A : automaton) (s : bytes) : outcome (result bytes bytes) :=
  let! ok := validate A s in
  Ret (if ok then Ok s else Err s).

(** [X::new(s).is_ok()]. *)
Definition new_is_ok (A : automaton) (s : bytes) : outcome bool :=
  let! r := new A s in Ret (is_ok r).

(** The fifteen automata, grammar.rs (line of the [struct]). *)
Definition LanguageTag := Automaton LanguageTag_push LanguageTag_is_accepting.            (* 2 *)
Definition Privateuse := Automaton Privateuse_push Privateuse_is_accepting.              (* 1099 *)
Definition PrivateuseSubtag := Automaton PrivateuseSubtag_push PrivateuseSubtag_is_accepting. (* 1189 *)
Definition Langtag := Automaton Langtag_push Langtag_is_accepting.                       (* 1260 *)
Definition Language := Automaton Language_push Language_is_accepting.                    (* 1687 *)
Definition Primary := Automaton Primary_push Primary_is_accepting.                       (* 1804 *)
Definition Extlang := Automaton Extlang_push Extlang_is_accepting.                       (* 1852 *)
Definition ExtlangTag := Automaton ExtlangTag_push ExtlangTag_is_accepting.              (* 1932 *)
Definition Script := Automaton Script_push Script_is_accepting.                          (* 1980 *)
Definition Region := Automaton Region_push Region_is_accepting.                          (* 2032 *)
Definition Variant := Automaton Variant_push Variant_is_accepting.                       (* 2085 *)
Definition Variants := Automaton Variants_push Variants_is_accepting.                    (* 2170 *)
Definition Extension := Automaton Extension_push Extension_is_accepting.                 (* 2268 *)
Definition ExtensionSubtag := Automaton ExtensionSubtag_push ExtensionSubtag_is_accepting. (* 2354 *)
Definition Extensions := Automaton Extensions_push Extensions_is_accepting.              (* 2422 *)
