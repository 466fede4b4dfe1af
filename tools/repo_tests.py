#!/usr/bin/env python3
"""Writes rocq/theories/RepoTests.v: the tag lists of /repo/tests/lib.rs, and the other assertions of /repo/tests."""
import os, re

ROOT = os.path.dirname(os.path.dirname(os.path.abspath(__file__)))
src = open("/repo/tests/lib.rs").read()

def tags(test):
    body = src[src.index("fn " + test):]
    body = body[body.index("vec![") + 5:body.index("\n\t];")]
    body = re.sub(r"//[^\n]*", "", body)
    body = re.sub(r"\\\n\s*", "", body)
    return re.findall(r'"([^"]*)"', body)

out = ['''(** The assertions of /repo/tests, evaluated on the model.  These are tests, not proofs: evidence that the model
    behaves as the code does.  Generated by tools/repo_tests.py. *)
From Verif Require Import Base GrammarRs Validate Utils Grandfathered Normal LangTag Newtypes Derived Spec Observe.

Definition good (s : string) : bool :=
  match new_of LangTagT (bs s) with Ret (Ok _) => true | _ => false end.
Definition bad (s : string) : bool :=
  match new_of LangTagT (bs s) with Ret (Err _) => true | _ => false end.
''']
for test, check in [("test_wellformed_tags", "good"), ("test_broken_tags", "bad"),
                    ("test_random_good_tags", "good"), ("test_random_bad_tags", "bad")]:
    items = ";\n   ".join('"%s"' % t for t in tags(test))
    out.append("(** tests/lib.rs, [%s]. *)\nExample %s : forallb %s\n  [%s]%%string = true.\nProof. vm_compute. reflexivity. Qed.\n"
               % (test, test, check, items))
out.append('''(** tests/lib.rs, [test_primary_language]. *)
Example test_primary_language :
  (let! l := LangTag_language (bs "fr") in Ret (option_map Language_primary l)) = Ret (Some (bs "fr")) /\\
  (let! l := LangTag_language (bs "de") in Ret (option_map Language_primary l)) = Ret (Some (bs "de")) /\\
  LangTag_language (bs "x-fr-CH") = Ret None /\\ LangTag_language (bs "i-klingon") = Ret None /\\
  LangTag_language (bs "i-bnn") = Ret None /\\
  (let! l := LangTag_language (bs "zh-hakka") in Ret (option_map Language_primary l)) = Ret (Some (bs "zh")).
Proof. repeat split; vm_compute; reflexivity. Qed.

(** tests/lib.rs, [test_unicode], [test_cmp] and the constant. *)
Example test_unicode : bad "zh-x-Üńìcødê" = true.
Proof. vm_compute. reflexivity. Qed.
Example test_cmp : eq_of LangTagT (bs "dE-AraB-lY") (bs "DE-aRaB-LY") = Ret true /\\
  eq_of LangTagT (bs "zh") (bs "zh-Latn") = Ret false.
Proof. split; vm_compute; reflexivity. Qed.
Example test_macro : langtag_macro (bs "fr-FR") = Ret (bs "fr-FR").
Proof. vm_compute. reflexivity. Qed.

(** tests/langtag.rs. *)
Example langtag_script_region : let tag := bs "fr-abc-nice-bz-e-foo" in
  new_of NormalLangTagT tag = Ret (Ok tag) /\\
  NormalLangTag_script tag = Ret (Some (bs "nice")) /\\ NormalLangTag_region tag = Ret (Some (bs "bz")).
Proof. repeat split; vm_compute; reflexivity. Qed.

(** tests/language.rs. *)
Example language_tests : let tag := bs "fr-abc-def-ghi-bz" in
  new_of LangTagT tag = Ret (Ok tag) /\\ new_of NormalLangTagT tag = Ret (Ok tag) /\\
  LangTag_language tag = Ret (Some (bs "fr-abc-def-ghi")) /\\
  omap Language_primary (NormalLangTag_language tag) = Ret (bs "fr") /\\
  omap Language_extension (NormalLangTag_language tag) = Ret (Some (bs "abc-def-ghi")).
Proof. repeat split; vm_compute; reflexivity. Qed.

(** tests/privateuse.rs. *)
Example privateuse_tests : let tag := bs "fr-x-ext1-ext2-ext3-ext4-ext5-ext6" in
  new_of LangTagT tag = Ret (Ok tag) /\\
  LangTag_private_use tag = Ret (Some (bs "x-ext1-ext2-ext3-ext4-ext5-ext6")) /\\
  (let! it := LangTag_private_use_subtags tag in calls PrivateUseIter_next 7 it) =
  Ret [Some (bs "ext1"); Some (bs "ext2"); Some (bs "ext3"); Some (bs "ext4"); Some (bs "ext5"); Some (bs "ext6"); None].
Proof. repeat split; vm_compute; reflexivity. Qed.

(** tests/extension.rs. *)
Example extensions_tests : let tag := bs "fr-a-ext1-ext2-b-ext3-ext4-c-ext5-ext6" in
  new_of LangTagT tag = Ret (Ok tag) /\\ LangTag_is_normal tag = Ret true /\\
  LangTag_extensions tag = Ret (bs "a-ext1-ext2-b-ext3-ext4-c-ext5-ext6") /\\
  (let! e := LangTag_extensions tag in calls ExtensionsIter_next 4 (Extensions_iter e)) =
  Ret [Some (bs "a-ext1-ext2"); Some (bs "b-ext3-ext4"); Some (bs "c-ext5-ext6"); None].
Proof. repeat split; vm_compute; reflexivity. Qed.
Example extensions_iter_extension : let tag := bs "fr-a-ext1-ext2-b-ext3" in
  new_of LangTagT tag = Ret (Ok tag) /\\
  Singleton_try_from_char (code "a"%byte) = Ok "a"%byte /\\ Singleton_try_from_char (code "b"%byte) = Ok "b"%byte /\\
  (let! e := LangTag_extensions tag in let! it := Extensions_iter_extension e "a"%byte in calls ExtensionIter_next 2 it) =
  Ret [Some (bs "ext1"); Some (bs "ext2")] /\\
  (let! e := LangTag_extensions tag in let! it := Extensions_iter_extension e "b"%byte in calls ExtensionIter_next 2 it) =
  Ret [Some (bs "ext3"); None].
Proof. repeat split; vm_compute; reflexivity. Qed.

(** tests/variant.rs. *)
Example variants_tests : let tag := bs "fr-azert-0foo-barbz-4242-e-ext" in
  new_of LangTagT tag = Ret (Ok tag) /\\
  LangTag_variants tag = Ret (bs "azert-0foo-barbz-4242") /\\
  (let! v := LangTag_variants tag in calls VariantsIter_next 5 (Variants_iter v)) =
  Ret [Some (bs "azert"); Some (bs "0foo"); Some (bs "barbz"); Some (bs "4242"); None] /\\
  (let! v := LangTag_variants tag in Variants_first v) = Ret (Some (bs "azert")) /\\
  (let! v := LangTag_variants tag in Variants_last v) = Ret (Some (bs "4242")).
Proof. repeat split; vm_compute; reflexivity. Qed.
''')
open(os.path.join(ROOT, "rocq/theories/RepoTests.v"), "w").write("\n".join(out))
