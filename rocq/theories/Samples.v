(** Concrete values used by the examples beside the theorems. *)
From Verif Require Import Base GrammarRs Validate Utils Grandfathered Normal LangTag Newtypes Derived Spec Observe.

(** A normal tag with every component: extlang, script, region, two variants, two extensions, private use. *)
Definition full_text : bytes := bs "sl-cmn-Latn-IT-rozaj-1996-a-foo-b-bar-Baz-x-priv-1".
Definition full_tag : tag :=
  Tag (Lang (bs "sl") [bs "cmn"]) (Some (bs "Latn")) (Some (bs "IT")) [bs "rozaj"; bs "1996"]
      [Ext "a"%byte [bs "foo"]; Ext "b"%byte [bs "bar"; bs "Baz"]] (Some (Priv "x"%byte [bs "priv"; bs "1"])).
Lemma full_is_tag : is_tag full_text full_tag.
Proof. split; vm_compute; reflexivity. Qed.

(** No extension. *)
Definition private_text_sample : bytes := bs "de-Latn-DE-1996-x-ab-c".
Definition private_tag_sample : tag :=
  Tag (Lang (bs "de") []) (Some (bs "Latn")) (Some (bs "DE")) [bs "1996"] [] (Some (Priv "x"%byte [bs "ab"; bs "c"])).
Lemma private_is_tag : is_tag private_text_sample private_tag_sample.
Proof. split; vm_compute; reflexivity. Qed.

(** Extensions, no private use. *)
Definition ext_text_sample : bytes := bs "fr-FR-a-ext-b-ext1-ext2".
Definition ext_tag_sample : tag :=
  Tag (Lang (bs "fr") []) None (Some (bs "FR")) []
      [Ext "a"%byte [bs "ext"]; Ext "b"%byte [bs "ext1"; bs "ext2"]] None.
Lemma ext_is_tag : is_tag ext_text_sample ext_tag_sample.
Proof. split; vm_compute; reflexivity. Qed.

(** Language, script and region only. *)
Definition short_text : bytes := bs "zh-Hant-TW".
Definition short_tag : tag := Tag (Lang (bs "zh") []) (Some (bs "Hant")) (Some (bs "TW")) [] [] None.
Lemma short_is_tag : is_tag short_text short_tag.
Proof. split; vm_compute; reflexivity. Qed.

(** A language only. *)
Definition lone_text : bytes := bs "fr".
Definition lone_tag : tag := Tag (Lang (bs "fr") []) None None [] [] None.
Lemma lone_is_tag : is_tag lone_text lone_tag.
Proof. split; vm_compute; reflexivity. Qed.
