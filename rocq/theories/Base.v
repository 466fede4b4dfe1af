(** Rust primitives used by the model: bytes, strings, panics, slicing.

    This file models no code of /repo by itself.  It fixes what the Rust
    operations used by /repo/src mean:
    - [u8] is Coq's [byte] (256 constructors), [char] and [u32] are [N];
    - [&str], [&[u8]] are [list byte] (a [str] is its UTF-8 bytes);
    - [usize] is [nat] (offsets never exceed [len + 2], see DESIGN.md);
    - a panic is the value [Panic]; [OutOfFuel] stands for a loop that did not
      end within its fuel and is proved never to occur (property C37). *)
From Coq Require Export String.
From Coq Require Export Init.Byte.
From Coq Require Strings.Byte.
From Coq Require Export List Arith NArith Bool Lia.
Export ListNotations.
Open Scope list_scope.

(** [u8], [&[u8]] / [&str]. *)
Definition bytes := list byte.

(** Literals: [bs "fr-FR"] is the Rust [b"fr-FR"] / ["fr-FR"]. *)
Definition bs (s : string) : bytes := String.list_byte_of_string s.

(** Numeric value of a [u8] ([b as u32]). *)
Definition code (b : byte) : N := Strings.Byte.to_N b.

(** [==] on [u8]. *)
Definition beq (a b : byte) : bool := Strings.Byte.eqb a b.

(** The byte [b'-']. *)
Definition dash : byte := "-"%byte.

(** Result of running a Rust function: normal return, panic, or fuel exhausted. *)
Inductive outcome (A : Type) : Type :=
| Ret (a : A)
| Panic
| OutOfFuel.
Arguments Ret {A} a.
Arguments Panic {A}.
Arguments OutOfFuel {A}.

Definition bind {A B} (x : outcome A) (f : A -> outcome B) : outcome B :=
  match x with
  | Ret a => f a
  | Panic => Panic
  | OutOfFuel => OutOfFuel
  end.

Notation "'let!' x ':=' e 'in' k" := (bind e (fun x => k))
  (at level 200, x pattern, e at level 200, k at level 200, right associativity).

Definition omap {A B} (f : A -> B) (x : outcome A) : outcome B := bind x (fun a => Ret (f a)).

(** [bytes[i]]: panics when out of bounds. *)
Definition index (s : bytes) (i : nat) : outcome byte :=
  match nth_error s i with
  | Some b => Ret b
  | None => Panic
  end.

(** [u8::is_utf8_char_boundary] of core: not a continuation byte 0x80..=0xBF. *)
Definition boundary_byte (b : byte) : bool := (code b <? 128)%N || (192 <=? code b)%N.

(** [str::is_char_boundary]. *)
Definition is_char_boundary (s : bytes) (i : nat) : bool :=
  (i =? 0) || (i =? length s) ||
  match nth_error s i with
  | Some b => boundary_byte b
  | None => false
  end.

(** [&s[a..b]] on a [str]: panics unless [a <= b], both are in bounds and both are char boundaries. *)
Definition slice (s : bytes) (a b : nat) : outcome bytes :=
  if (a <=? b) && (b <=? length s) && is_char_boundary s a && is_char_boundary s b
  then Ret (firstn (b - a) (skipn a s))
  else Panic.

(** [&s[a..]] on a [str]. *)
Definition slice_from (s : bytes) (a : nat) : outcome bytes :=
  if (a <=? length s) && is_char_boundary s a
  then Ret (skipn a s)
  else Panic.

(** [&s[..b]] on a [str]. *)
Definition slice_to (s : bytes) (b : nat) : outcome bytes :=
  if (b <=? length s) && is_char_boundary s b
  then Ret (firstn b s)
  else Panic.

(** [u8::is_ascii_uppercase], [u8::is_ascii_alphanumeric] of core. *)
Definition is_ascii_uppercase (b : byte) : bool := (65 <=? code b)%N && (code b <=? 90)%N.
Definition is_ascii_alphanumeric (b : byte) : bool :=
  ((48 <=? code b) && (code b <=? 57))%N ||
  ((65 <=? code b) && (code b <=? 90))%N ||
  ((97 <=? code b) && (code b <=? 122))%N.

(** Three-way comparison, [core::cmp::Ordering]: [Lt], [Eq], [Gt] of Coq's [comparison]. *)
Definition byte_cmp (a b : byte) : comparison := (code a ?= code b)%N.
