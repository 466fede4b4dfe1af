(** Model of the derived and small trait implementations: [Kind], [GrandfatheredLangTag], [Singleton], and of
    the macro [langtag!].  A derived [Ord] compares the discriminants (positions in the declaration), a derived
    [Hash] feeds the discriminant, as an [isize], to the hasher; both then go through the fields, in order. *)
From Verif Require Import Base GrammarRs Validate Utils Grandfathered Normal LangTag.

(** lib.rs:288-292: discriminants of [Kind]. *)
Definition Kind_discriminant (k : kind) : N :=
  match k with KNormal => 0 | KPrivateUse => 1 | KGrandfathered => 2 end%N.

(** lib.rs:287, [#[derive(PartialEq, Eq, PartialOrd, Ord, Hash)]] of [Kind]. *)
Definition Kind_eq (a b : kind) : bool := (Kind_discriminant a =? Kind_discriminant b)%N.
Definition Kind_cmp (a b : kind) : comparison := (Kind_discriminant a ?= Kind_discriminant b)%N.
Definition Kind_partial_cmp (a b : kind) : option comparison := Some (Kind_cmp a b).
Definition Kind_hash (H : hasher) (a : kind) (st : hstate H) : hstate H := write_isize H st (Kind_discriminant a).

(** grandfathered.rs:22-51: discriminants of [GrandfatheredLangTag]. *)
Definition Grandfathered_discriminant (g : grandfathered) : N :=
  match g with
  | EnGbOed => 0 | IAmi => 1 | IBnn => 2 | IDefault => 3 | IEnochian => 4 | IHak => 5 | IKlingon => 6 | ILux => 7
  | IMingo => 8 | INavajo => 9 | IPwn => 10 | ITao => 11 | ITay => 12 | ITsu => 13 | SgnBeFr => 14 | SgnBeNl => 15
  | SgnChDe => 16 | ArtLojban => 17 | CelGaulish => 18 | NoBok => 19 | NoNyn => 20 | ZhGuoyu => 21 | ZhHakka => 22
  | ZhMin => 23 | ZhMinNan => 24 | ZhXiang => 25
  end%N.

(** grandfathered.rs:21, [#[derive(Clone, Copy, PartialEq, Eq, PartialOrd, Ord, Hash)]]. *)
Definition Grandfathered_eq (a b : grandfathered) : bool :=
  (Grandfathered_discriminant a =? Grandfathered_discriminant b)%N.
Definition Grandfathered_cmp (a b : grandfathered) : comparison :=
  (Grandfathered_discriminant a ?= Grandfathered_discriminant b)%N.
Definition Grandfathered_partial_cmp (a b : grandfathered) : option comparison := Some (Grandfathered_cmp a b).
Definition Grandfathered_hash (H : hasher) (a : grandfathered) (st : hstate H) : hstate H :=
  write_isize H st (Grandfathered_discriminant a).

(** normal/extension.rs:10, the rest of the derive of [Singleton(u8)] ([Singleton_eq] and [Singleton_cmp] are in
    Normal.v). *)
Definition Singleton_partial_cmp (a b : byte) : option comparison := Some (Singleton_cmp a b).
Definition Singleton_hash (H : hasher) (a : byte) (st : hstate H) : hstate H := write_u8 H st a.

(** [char::encode_utf8] for a character below 0x800, all that [u8 as char] can give. *)
Definition utf8_of_u8 (b : byte) : bytes :=
  if (code b <? 128)%N then [b] else [as_u8 (192 + code b / 64); as_u8 (128 + code b mod 64)].

(** normal/extension.rs:86-90, [Display] of [Singleton] with the default format specification
    ([char::fmt] then writes the character): the text [to_string] gives. *)
Definition Singleton_to_string (a : byte) : bytes := utf8_of_u8 a.

(** grandfathered.rs:148-152, [Display] of [GrandfatheredLangTag] with the default format specification. *)
Definition Grandfathered_to_string (g : grandfathered) : bytes := Grandfathered_as_str g.

(** lib.rs:207-215, the macro [langtag!]; [LangTag::from_str] is the generated constructor on [&str]. *)
Definition langtag_macro (s : bytes) : outcome bytes :=
  let! r := new LanguageTag s in
  match r with
  | Ok value => Ret value
  | Err _ => Panic
  end.
