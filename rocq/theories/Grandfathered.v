(** Model of /repo/src/grandfathered.rs. *)
From Verif Require Import Base Validate Utils.

(** grandfathered.rs:22-51 (enum [GrandfatheredLangTag]). *)
Inductive grandfathered : Type :=
(* irregular *)
| EnGbOed | IAmi | IBnn | IDefault | IEnochian | IHak | IKlingon | ILux | IMingo | INavajo | IPwn | ITao
| ITay | ITsu | SgnBeFr | SgnBeNl | SgnChDe
(* regular *)
| ArtLojban | CelGaulish | NoBok | NoNyn | ZhGuoyu | ZhHakka | ZhMin | ZhMinNan | ZhXiang.

(** grandfathered.rs:56-60, [GRANDFATHERED]. *)
Definition GRANDFATHERED : list grandfathered :=
  [ EnGbOed; IAmi; IBnn; IDefault; IEnochian; IHak; IKlingon; ILux; IMingo; INavajo; IPwn; ITao;
    ITay; ITsu; SgnBeFr; SgnBeNl; SgnChDe; ArtLojban; CelGaulish; NoBok; NoNyn; ZhGuoyu; ZhHakka;
    ZhMin; ZhMinNan; ZhXiang ].

(** grandfathered.rs:74-89, [GrandfatheredLangTag::language]. *)
Definition Grandfathered_language (g : grandfathered) : option bytes :=
  match g with
  | ArtLojban => Some (bs "art")
  | CelGaulish => Some (bs "cel")
  | NoBok => Some (bs "no")
  | NoNyn => Some (bs "no")
  | ZhGuoyu => Some (bs "zh")
  | ZhHakka => Some (bs "zh")
  | ZhMin => Some (bs "zh")
  | ZhMinNan => Some (bs "zh")
  | ZhXiang => Some (bs "zh")
  | _ => None
  end.

(** grandfathered.rs:93-124, [GrandfatheredLangTag::as_bytes]. *)
Definition Grandfathered_as_bytes (g : grandfathered) : bytes :=
  match g with
  | EnGbOed => bs "en-GB-oed"
  | IAmi => bs "i-ami"
  | IBnn => bs "i-bnn"
  | IDefault => bs "i-default"
  | IEnochian => bs "i-enochian"
  | IHak => bs "i-hak"
  | IKlingon => bs "i-klingon"
  | ILux => bs "i-lux"
  | IMingo => bs "i-mingo"
  | INavajo => bs "i-navajo"
  | IPwn => bs "i-pwn"
  | ITao => bs "i-tao"
  | ITay => bs "i-tay"
  | ITsu => bs "i-tsu"
  | SgnBeFr => bs "sgn-BE-FR"
  | SgnBeNl => bs "sgn-BE-NL"
  | SgnChDe => bs "sgn-CH-DE"
  | ArtLojban => bs "art-lojban"
  | CelGaulish => bs "cel-gaulish"
  | NoBok => bs "no-bok"
  | NoNyn => bs "no-nyn"
  | ZhGuoyu => bs "zh-guoyu"
  | ZhHakka => bs "zh-hakka"
  | ZhMin => bs "zh-min"
  | ZhMinNan => bs "zh-min-nan"
  | ZhXiang => bs "zh-xiang"
  end.

(** grandfathered.rs:128-130, [as_str], and 148-152, [Display::fmt]: the same bytes. *)
Definition Grandfathered_as_str (g : grandfathered) : bytes := Grandfathered_as_bytes g.

(** grandfathered.rs:138-142, the loop [for tag in &GRANDFATHERED]. *)
Fixpoint try_from_loop (l : list grandfathered) (s : bytes) : outcome (result grandfathered bytes) :=
  match l with
  | [] => Ret (Err s)
  | g :: rest =>
    let! eq := case_insensitive_eq (Grandfathered_as_bytes g) s in
    if eq then Ret (Ok g) else try_from_loop rest s
  end.

(** grandfathered.rs:133-146, [TryFrom<&[u8]>]. *)
Definition Grandfathered_try_from (s : bytes) : outcome (result grandfathered bytes) :=
  try_from_loop GRANDFATHERED s.

(** grandfathered.rs:65-70, [GrandfatheredLangTag::new]. *)
Definition Grandfathered_new (s : bytes) : outcome (result grandfathered bytes) :=
  let! r := Grandfathered_try_from s in
  Ret match r with
      | Ok g => Ok g
      | Err _ => Err s
      end.
