(** Property C52: what the constructors accept, stated against the text of grammar.abnf. *)
From Verif Require Import Base GrammarRs Validate Utils Grandfathered Normal LangTag Newtypes Derived Spec Observe
  Grammar Abnf AbnfText AbnfEquiv.

Theorem C52_langtag_file : decides LangTagT (derived_from grammar_abnf "Language-Tag").
Proof. exact file_tag. Qed.
Theorem C52_productions_file :
  decides PrivateUseT (derived_from grammar_abnf "privateuse") /\
  decides PrivateUseSubtagT (derived_from grammar_abnf "privateuse-subtag") /\
  decides NormalLangTagT (derived_from grammar_abnf "langtag") /\
  decides LanguageT (derived_from grammar_abnf "language") /\
  decides PrimaryLanguageT (derived_from grammar_abnf "primary") /\
  decides LanguageExtensionT (derived_from grammar_abnf "extlang") /\
  decides ExtendedLangTagT (derived_from grammar_abnf "extlang-tag") /\
  decides ScriptT (derived_from grammar_abnf "script") /\
  decides RegionT (derived_from grammar_abnf "region") /\
  decides VariantT (derived_from grammar_abnf "variant") /\
  decides VariantsT (derived_from grammar_abnf "variants") /\
  decides ExtensionT (derived_from grammar_abnf "extension") /\
  decides ExtensionSubtagT (derived_from grammar_abnf "extension-subtag") /\
  decides ExtensionsT (derived_from grammar_abnf "extensions").
Proof. exact file_productions. Qed.
(** The productions that are not [str] types: [Singleton] and the two halves of [GrandfatheredLangTag]. *)
Theorem C52_singleton_file : forall b, Singleton_new b = Ok b <-> derived_from grammar_abnf "singleton" [b].
Proof.
  intros b. rewrite file_singleton. split.
  - intros N. exists b. split; [reflexivity|]. destruct b; try discriminate N; reflexivity.
  - intros (c & [= <-] & S). destruct b; try discriminate S; reflexivity.
Qed.
Theorem C52_grandfathered_file : forall s,
  (exists g, Grandfathered_new s = Ret (Ok g)) <-> derived_from grammar_abnf "grandfathered" s.
Proof. exact file_grandfathered. Qed.
Print Assumptions C52_langtag_file.
Print Assumptions C52_productions_file.
Print Assumptions C52_singleton_file.
Print Assumptions C52_grandfathered_file.

(** What the reader makes of three of the rules. *)
Example C52_read : exists G, read_abnf grammar_abnf = Some G /\ length G = 20 /\
  rule G (bs "langtag") = Some
    (let option e := Repeat 0 (Some 1) (Sequence (Quoted (bs "-")) (Name (bs e))) in
     let many e := Repeat 0 None (Sequence (Quoted (bs "-")) (Name (bs e))) in
     Sequence (Name (bs "language")) (Sequence (option "script"%string) (Sequence (option "region"%string)
       (Sequence (many "variant"%string) (Sequence (many "extension"%string) (option "privateuse"%string)))))) /\
  rule G (bs "variant") = Some
    (Choice (Repeat 5 (Some 8) (Name (bs "alphanum")))
       (Sequence (Name (bs "DIGIT")) (Repeat 3 (Some 3) (Name (bs "alphanum"))))) /\
  rule G (bs "extlang") = Some
    (Sequence (Name (bs "extlang-tag"))
       (Repeat 0 (Some 2) (Sequence (Quoted (bs "-")) (Name (bs "extlang-tag"))))).
Proof.
  exists file_grammar. split; [exact file_read|]. repeat split; vm_compute; reflexivity.
Qed.
(** A derivation and an underivable string. *)
Example C52_case : derived_from grammar_abnf "Language-Tag" (bs "sl-rozaj-biske-1994") /\
  ~ derived_from grammar_abnf "Language-Tag" (bs "sl-rozaj-bis").
Proof.
  split.
  - destruct (C52_langtag_file (bs "sl-rozaj-biske-1994")) as [[_ D]|[N _]]; [exact D|vm_compute in N; discriminate].
  - destruct (C52_langtag_file (bs "sl-rozaj-bis")) as [[N _]|[_ D]]; [vm_compute in N; discriminate|exact D].
Qed.
