(** The program that the texts of RustText.v are, read by RustSyntax.v.  The automata of grammar.rs are in the module
    [grammar]; all other names of the crate are in scope everywhere ([pub use], [use crate::..], [use super::..]). *)
From Verif Require Import Base RustText RustSyntax RustEval.

(** The files of /repo/src, and the module the types are in. *)
Definition files : list (string * bytes) :=
  [ (""%string, lib_rs); (""%string, utils_rs); (""%string, grandfathered_rs); (""%string, private_use_rs);
    (""%string, normal_mod_rs); (""%string, normal_extension_rs); (""%string, normal_variant_rs);
    (""%string, normal_private_use_rs); (""%string, normal_script_rs); (""%string, normal_region_rs);
    (""%string, normal_language_mod_rs); (""%string, normal_language_extlang_rs);
    (""%string, normal_language_primary_rs); ("grammar::"%string, grammar_rs) ].

Fixpoint load (l : list (string * bytes)) (P : program) : option program :=
  match l with
  | (pre, s) :: l' =>
    match parse s with Some is => load l' (fold_left (load_item pre) is P) | None => None end
  | [] => Some P
  end.

Definition crate : program :=
  Eval vm_compute in match load files (Program [] [] [] [] []) with Some P => P | None => Program [] [] [] [] [] end.

Lemma crate_is_the_source : load files (Program [] [] [] [] []) = Some crate.
Proof. vm_cast_no_check (eq_refl (Some crate)). Qed.
