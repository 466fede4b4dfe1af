(** Model of /repo/src/utils.rs. *)
From Verif Require Import Base.

(** [u8] addition as it wraps in a release build; [Case.v] shows it never wraps where it is used
    (so that a debug build, which panics on overflow, behaves the same). *)
Definition u8_add (a : byte) (n : N) : byte :=
  match Strings.Byte.of_N ((code a + n) mod 256) with
  | Some b => b
  | None => a
  end.

(** utils.rs:6-8, [into_smallcase]. *)
Definition into_smallcase (c : byte) : byte :=
  if is_ascii_uppercase c then u8_add c 32 else c.

(** utils.rs:12-16, the loop [for i in 0..a.len()]; [n] iterations remain, at index [i]. *)
Fixpoint case_insensitive_eq_loop (a b : bytes) (n i : nat) : outcome bool :=
  match n with
  | O => Ret true
  | S n' =>
    let! x := index a i in
    let! y := index b i in
    if negb (beq (into_smallcase x) (into_smallcase y)) then Ret false
    else case_insensitive_eq_loop a b n' (i + 1)
  end.

(** utils.rs:10-22, [case_insensitive_eq]. *)
Definition case_insensitive_eq (a b : bytes) : outcome bool :=
  if length a =? length b then case_insensitive_eq_loop a b (length a) 0
  else Ret false.

(** [core::hash::Hasher]: a state and its methods [write_u8], which is all that [u8::hash] calls, and
    [write_isize], which a derived [Hash] calls with the discriminant of an enum (Derived.v). *)
Record hasher := Hasher {
  hstate : Type;
  write_u8 : hstate -> byte -> hstate;
  write_isize : hstate -> N -> hstate
}.

(** utils.rs:24-28, [case_insensitive_hash]. *)
Fixpoint case_insensitive_hash (H : hasher) (s : bytes) (st : hstate H) : hstate H :=
  match s with
  | [] => st
  | b :: rest => case_insensitive_hash H rest (write_u8 H st (into_smallcase b))
  end.

(** utils.rs:33-48, the [loop] of [case_insensitive_cmp]. *)
Fixpoint case_insensitive_cmp_loop (fuel : nat) (a b : bytes) (i : nat) : outcome comparison :=
  match fuel with
  | O => OutOfFuel
  | S fuel' =>
    if length a <=? i then
      if length b <=? i then Ret Eq else Ret Gt
    else if length b <=? i then Ret Lt
    else
      let! x := index a i in
      let! y := index b i in
      match byte_cmp (into_smallcase x) (into_smallcase y) with
      | Eq => case_insensitive_cmp_loop fuel' a b (i + 1)
      | ord => Ret ord
      end
  end.

(** utils.rs:30-49, [case_insensitive_cmp]. *)
Definition case_insensitive_cmp (a b : bytes) : outcome comparison :=
  case_insensitive_cmp_loop (S (length a)) a b 0.
