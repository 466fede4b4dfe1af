(** Model of the attributes and trait implementations of the fifteen newtypes of /repo/src.

    Each type [X] below is declared [pub struct X(str);] with its own [#[automaton(..)]] attribute and its own
    [PartialEq], [PartialOrd], [Ord] and [Hash] implementations; the line ranges are those of each. *)
From Verif Require Import Base GrammarRs Validate Utils.

Inductive newtype : Type :=
| LangTagT
| PrivateUseT
| PrivateUseSubtagT
| NormalLangTagT
| LanguageT
| PrimaryLanguageT
| LanguageExtensionT
| ExtendedLangTagT
| ScriptT
| RegionT
| VariantT
| VariantsT
| ExtensionT
| ExtensionSubtagT
| ExtensionsT.

(** The automaton named by the attribute [#[automaton(crate::grammar::..)]]. *)
Definition automaton_of (ty : newtype) : automaton :=
  match ty with
  | LangTagT => LanguageTag                 (* lib.rs:70 *)
  | PrivateUseT => Privateuse               (* normal/private_use.rs:7 *)
  | PrivateUseSubtagT => PrivateuseSubtag   (* normal/private_use.rs:87 *)
  | NormalLangTagT => Langtag               (* normal/mod.rs:21 *)
  | LanguageT => Language                   (* normal/language/mod.rs:16 *)
  | PrimaryLanguageT => Primary             (* normal/language/primary.rs:9 *)
  | LanguageExtensionT => Extlang           (* normal/language/extlang.rs:17 *)
  | ExtendedLangTagT => ExtlangTag          (* normal/language/extlang.rs:102 *)
  | ScriptT => Script                       (* normal/script.rs:11 *)
  | RegionT => Region                       (* normal/region.rs:15 *)
  | VariantT => Variant                     (* normal/variant.rs:11 *)
  | VariantsT => Variants                   (* normal/variant.rs:54 *)
  | ExtensionT => Extension                 (* normal/extension.rs:110 *)
  | ExtensionSubtagT => ExtensionSubtag     (* normal/extension.rs:307 *)
  | ExtensionsT => Extensions               (* normal/extension.rs:199 *)
  end.

(** [X::new], generated by the derive from that attribute (see [new] in Validate.v). *)
Definition new_of (ty : newtype) (s : bytes) : outcome (result bytes bytes) := new (automaton_of ty) s.

(** [PartialEq::eq]. *)
Definition eq_of (ty : newtype) (a b : bytes) : outcome bool :=
  match ty with
  | LangTagT => case_insensitive_eq a b             (* lib.rs:180-184 *)
  | PrivateUseT => case_insensitive_eq a b          (* normal/private_use.rs:25-29 *)
  | PrivateUseSubtagT => case_insensitive_eq a b    (* normal/private_use.rs:99-103 *)
  | NormalLangTagT => case_insensitive_eq a b       (* normal/mod.rs:153-157 *)
  | LanguageT => case_insensitive_eq a b            (* normal/language/mod.rs:67-71 *)
  | PrimaryLanguageT => case_insensitive_eq a b     (* normal/language/primary.rs:21-25 *)
  | LanguageExtensionT => case_insensitive_eq a b   (* normal/language/extlang.rs:35-39 *)
  | ExtendedLangTagT => case_insensitive_eq a b     (* normal/language/extlang.rs:114-118 *)
  | ScriptT => case_insensitive_eq a b              (* normal/script.rs:23-27 *)
  | RegionT => case_insensitive_eq a b              (* normal/region.rs:27-31 *)
  | VariantT => case_insensitive_eq a b             (* normal/variant.rs:23-27 *)
  | VariantsT => case_insensitive_eq a b            (* normal/variant.rs:82-86 *)
  | ExtensionT => case_insensitive_eq a b           (* normal/extension.rs:132-136 *)
  | ExtensionSubtagT => case_insensitive_eq a b     (* normal/extension.rs:319-323 *)
  | ExtensionsT => case_insensitive_eq a b          (* normal/extension.rs:246-250 *)
  end.

(** [Ord::cmp]. *)
Definition cmp_of (ty : newtype) (a b : bytes) : outcome comparison :=
  match ty with
  | LangTagT => case_insensitive_cmp a b             (* lib.rs:194-198 *)
  | PrivateUseT => case_insensitive_cmp a b          (* normal/private_use.rs:39-43 *)
  | PrivateUseSubtagT => case_insensitive_cmp a b    (* normal/private_use.rs:113-117 *)
  | NormalLangTagT => case_insensitive_cmp a b       (* normal/mod.rs:167-171 *)
  | LanguageT => case_insensitive_cmp a b            (* normal/language/mod.rs:81-85 *)
  | PrimaryLanguageT => case_insensitive_cmp a b     (* normal/language/primary.rs:35-39 *)
  | LanguageExtensionT => case_insensitive_cmp a b   (* normal/language/extlang.rs:49-53 *)
  | ExtendedLangTagT => case_insensitive_cmp a b     (* normal/language/extlang.rs:128-132 *)
  | ScriptT => case_insensitive_cmp a b              (* normal/script.rs:37-41 *)
  | RegionT => case_insensitive_cmp a b              (* normal/region.rs:41-45 *)
  | VariantT => case_insensitive_cmp a b             (* normal/variant.rs:37-41 *)
  | VariantsT => case_insensitive_cmp a b            (* normal/variant.rs:96-100 *)
  | ExtensionT => case_insensitive_cmp a b           (* normal/extension.rs:146-150 *)
  | ExtensionSubtagT => case_insensitive_cmp a b     (* normal/extension.rs:333-337 *)
  | ExtensionsT => case_insensitive_cmp a b          (* normal/extension.rs:260-264 *)
  end.

(** [PartialOrd::partial_cmp]. *)
Definition partial_cmp_of (ty : newtype) (a b : bytes) : outcome (option comparison) :=
  match ty with
  | LangTagT => omap Some (cmp_of LangTagT a b)                       (* lib.rs:188-192 *)
  | PrivateUseT => omap Some (cmp_of PrivateUseT a b)                 (* normal/private_use.rs:33-37 *)
  | PrivateUseSubtagT => omap Some (cmp_of PrivateUseSubtagT a b)     (* normal/private_use.rs:107-111 *)
  | NormalLangTagT => omap Some (cmp_of NormalLangTagT a b)           (* normal/mod.rs:161-165 *)
  | LanguageT => omap Some (cmp_of LanguageT a b)                     (* normal/language/mod.rs:75-79 *)
  | PrimaryLanguageT => omap Some (cmp_of PrimaryLanguageT a b)       (* normal/language/primary.rs:29-33 *)
  | LanguageExtensionT => omap Some (cmp_of LanguageExtensionT a b)   (* normal/language/extlang.rs:43-47 *)
  | ExtendedLangTagT => omap Some (cmp_of ExtendedLangTagT a b)       (* normal/language/extlang.rs:122-126 *)
  | ScriptT => omap Some (cmp_of ScriptT a b)                         (* normal/script.rs:31-35 *)
  | RegionT => omap Some (cmp_of RegionT a b)                         (* normal/region.rs:35-39 *)
  | VariantT => omap Some (cmp_of VariantT a b)                       (* normal/variant.rs:31-35 *)
  | VariantsT => omap Some (cmp_of VariantsT a b)                     (* normal/variant.rs:90-94 *)
  | ExtensionT => omap Some (cmp_of ExtensionT a b)                   (* normal/extension.rs:140-144 *)
  | ExtensionSubtagT => omap Some (cmp_of ExtensionSubtagT a b)       (* normal/extension.rs:327-331 *)
  | ExtensionsT => omap Some (cmp_of ExtensionsT a b)                 (* normal/extension.rs:254-258 *)
  end.

(** [Hash::hash], driving the hasher [H] from the state [st]. *)
Definition hash_of (ty : newtype) (H : hasher) (a : bytes) (st : hstate H) : hstate H :=
  match ty with
  | LangTagT => case_insensitive_hash H a st             (* lib.rs:200-204 *)
  | PrivateUseT => case_insensitive_hash H a st          (* normal/private_use.rs:45-49 *)
  | PrivateUseSubtagT => case_insensitive_hash H a st    (* normal/private_use.rs:119-123 *)
  | NormalLangTagT => case_insensitive_hash H a st       (* normal/mod.rs:173-177 *)
  | LanguageT => case_insensitive_hash H a st            (* normal/language/mod.rs:87-91 *)
  | PrimaryLanguageT => case_insensitive_hash H a st     (* normal/language/primary.rs:41-45 *)
  | LanguageExtensionT => case_insensitive_hash H a st   (* normal/language/extlang.rs:55-59 *)
  | ExtendedLangTagT => case_insensitive_hash H a st     (* normal/language/extlang.rs:134-138 *)
  | ScriptT => case_insensitive_hash H a st              (* normal/script.rs:43-47 *)
  | RegionT => case_insensitive_hash H a st              (* normal/region.rs:47-51 *)
  | VariantT => case_insensitive_hash H a st             (* normal/variant.rs:43-47 *)
  | VariantsT => case_insensitive_hash H a st            (* normal/variant.rs:102-106 *)
  | ExtensionT => case_insensitive_hash H a st           (* normal/extension.rs:152-156 *)
  | ExtensionSubtagT => case_insensitive_hash H a st     (* normal/extension.rs:339-343 *)
  | ExtensionsT => case_insensitive_hash H a st          (* normal/extension.rs:266-270 *)
  end.

