(** Model of /repo/src/lib.rs and /repo/src/private_use.rs. *)
From Verif Require Import Base Validate Utils Grandfathered Normal.

(** private_use.rs:2, [type PrivateUseLangTag = PrivateUse]: its automaton is [Privateuse].
    lib.rs:69-80: [LangTag] uses the automaton [LanguageTag]; normal/mod.rs:20-31: [NormalLangTag] uses [Langtag]. *)

(** [Result::ok]. *)
Definition ok {T E} (r : result T E) : option T :=
  match r with Ok t => Some t | Err _ => None end.

(** lib.rs:149-151, [LangTag::as_normal]. *)
Definition LangTag_as_normal (s : bytes) : outcome (option bytes) :=
  omap ok (new Langtag s).

(** lib.rs:154-156, [LangTag::as_private_use]. *)
Definition LangTag_as_private_use (s : bytes) : outcome (option bytes) :=
  omap ok (new Privateuse s).

(** lib.rs:159-161, [LangTag::as_grandfathered]. *)
Definition LangTag_as_grandfathered (s : bytes) : outcome (option grandfathered) :=
  omap ok (Grandfathered_new s).

(** lib.rs:87-95, [LangTag::language]. *)
Definition LangTag_language (s : bytes) : outcome (option bytes) :=
  let! r := new Langtag s in
  match r with
  | Ok t => omap Some (NormalLangTag_language t)
  | Err _ =>
    let! g := Grandfathered_new s in
    Ret match g with
        | Ok t => Grandfathered_language t
        | Err _ => None
        end
  end.

(** [Option::and_then] with a fallible function. *)
Definition and_then {A B} (o : option A) (f : A -> outcome (option B)) : outcome (option B) :=
  match o with Some a => f a | None => Ret None end.

(** lib.rs:98-100, [LangTag::script]. *)
Definition LangTag_script (s : bytes) : outcome (option bytes) :=
  let! n := LangTag_as_normal s in and_then n NormalLangTag_script.

(** lib.rs:103-105, [LangTag::region]. *)
Definition LangTag_region (s : bytes) : outcome (option bytes) :=
  let! n := LangTag_as_normal s in and_then n NormalLangTag_region.

(** lib.rs:108-112, [LangTag::variants]. *)
Definition LangTag_variants (s : bytes) : outcome bytes :=
  let! n := LangTag_as_normal s in
  match n with
  | Some t => NormalLangTag_variants t
  | None => Ret Variants_EMPTY
  end.

(** lib.rs:115-119, [LangTag::extensions]. *)
Definition LangTag_extensions (s : bytes) : outcome bytes :=
  let! n := LangTag_as_normal s in
  match n with
  | Some t => NormalLangTag_extensions t
  | None => Ret Extensions_EMPTY
  end.

(** lib.rs:122-124, [LangTag::private_use]. *)
Definition LangTag_private_use (s : bytes) : outcome (option bytes) :=
  let! n := LangTag_as_normal s in and_then n NormalLangTag_private_use.

(** lib.rs:127-131, [LangTag::private_use_subtags]. *)
Definition LangTag_private_use_subtags (s : bytes) : outcome iter :=
  let! p := LangTag_private_use s in
  Ret match p with
      | Some p => PrivateUse_iter p
      | None => iter_default
      end.

Definition is_some {A} (o : option A) : bool := match o with Some _ => true | None => false end.

(** lib.rs:134-136, [is_normal]; 139-141, [is_private_use]; 144-146, [is_grandfathered]. *)
Definition LangTag_is_normal (s : bytes) : outcome bool := omap is_some (LangTag_as_normal s).
Definition LangTag_is_private_use (s : bytes) : outcome bool := omap is_some (LangTag_as_private_use s).
Definition LangTag_is_grandfathered (s : bytes) : outcome bool := omap is_some (LangTag_as_grandfathered s).

(** lib.rs:218-222, [TypedLangTag]. *)
Inductive typed : Type :=
| TNormal (t : bytes)
| TPrivateUse (t : bytes)
| TGrandfathered (g : grandfathered).

(** lib.rs:288-292, [Kind]. *)
Inductive kind : Type := KNormal | KPrivateUse | KGrandfathered.

(** lib.rs:169-177, [LangTag::as_typed]; the last arm is [.unwrap()]. *)
Definition LangTag_as_typed (s : bytes) : outcome typed :=
  let! n := new Langtag s in
  match n with
  | Ok t => Ret (TNormal t)
  | Err _ =>
    let! p := new Privateuse s in
    match p with
    | Ok t => Ret (TPrivateUse t)
    | Err _ =>
      let! g := Grandfathered_new s in
      match g with
      | Ok g => Ret (TGrandfathered g)
      | Err _ => Panic
      end
    end
  end.

(** lib.rs:229-235, [TypedLangTag::language]. *)
Definition Typed_language (t : typed) : outcome (option bytes) :=
  match t with
  | TNormal n => omap Some (NormalLangTag_language n)
  | TPrivateUse _ => Ret None
  | TGrandfathered g => Ret (Grandfathered_language g)
  end.

(** lib.rs:238-244, [TypedLangTag::kind]. *)
Definition Typed_kind (t : typed) : kind :=
  match t with
  | TNormal _ => KNormal
  | TPrivateUse _ => KPrivateUse
  | TGrandfathered _ => KGrandfathered
  end.

(** lib.rs:164-166, [LangTag::kind]. *)
Definition LangTag_kind (s : bytes) : outcome kind := omap Typed_kind (LangTag_as_typed s).

(** lib.rs:247-259, [TypedLangTag::is_normal], [is_private_use], [is_grandfathered]. *)
Definition Typed_is_normal (t : typed) : bool := match t with TNormal _ => true | _ => false end.
Definition Typed_is_private_use (t : typed) : bool := match t with TPrivateUse _ => true | _ => false end.
Definition Typed_is_grandfathered (t : typed) : bool := match t with TGrandfathered _ => true | _ => false end.

(** lib.rs:262-283, [TypedLangTag::as_normal], [as_private_use], [as_grandfathered]. *)
Definition Typed_as_normal (t : typed) : option bytes := match t with TNormal n => Some n | _ => None end.
Definition Typed_as_private_use (t : typed) : option bytes := match t with TPrivateUse p => Some p | _ => None end.
Definition Typed_as_grandfathered (t : typed) : option grandfathered :=
  match t with TGrandfathered g => Some g | _ => None end.

(** lib.rs:296-308, [Kind::is_normal], [is_private_use], [is_grandfathered]. *)
Definition Kind_is_normal (k : kind) : bool := match k with KNormal => true | _ => false end.
Definition Kind_is_private_use (k : kind) : bool := match k with KPrivateUse => true | _ => false end.
Definition Kind_is_grandfathered (k : kind) : bool := match k with KGrandfathered => true | _ => false end.
