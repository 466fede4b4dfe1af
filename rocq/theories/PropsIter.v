(** Properties C23-C31, C33, C40, C48 and C51: iterators, extensions, languages, singletons. *)
From Verif Require Import Base GrammarRs Validate Utils Grandfathered Normal LangTag Newtypes Derived Spec Observe
  Case Iter Terminate Order Values More Samples.

(** * C23 *)

Theorem C23_variants_deque : forall v, accepted VariantsT v -> exists l, variants_ok l = true /\ v = join l /\
  forall ops, calls_de VariantsIter_next VariantsIter_next_back ops (Variants_iter v) = Ret (deque_run ops l).
Proof.
  intros v V. apply accepted_variants in V as (l & L & ->). exists l. split; [exact L|]. split; [reflexivity|].
  intros ops. apply variants_calls, Variants_iter_spec, L.
Qed.
Print Assumptions C23_variants_deque.
Example C23_case : accepted VariantsT (bs "rozaj-1996-biske-abcdefgh") /\
  calls_de VariantsIter_next VariantsIter_next_back [Back; Front; Front; Back; Front; Back]
    (Variants_iter (bs "rozaj-1996-biske-abcdefgh")) =
  Ret [Some (bs "abcdefgh"); Some (bs "rozaj"); Some (bs "1996"); Some (bs "biske"); None; None].
Proof. split; vm_compute; reflexivity. Qed.

(** * C24 *)

Theorem C24_first_last : forall v, accepted VariantsT v -> exists l, variants_ok l = true /\ v = join l /\
  Variants_first v = Ret (first_of l) /\ Variants_last v = Ret (last_of l) /\
  (v = [] <-> l = []).
Proof.
  intros v V. apply accepted_variants in V as (l & L & ->). exists l. split; [exact L|]. split; [reflexivity|].
  destruct (variants_first_last l L) as [F B]. split; [exact F|]. split; [exact B|]. split; [|intros ->; reflexivity].
  destruct l as [|x l]; [reflexivity|]. intros E. cbn [variants_ok forallb] in L.
  apply Bool.andb_true_iff in L as [L _]. destruct l; cbn [join] in E.
  - subst x. discriminate.
  - destruct x; discriminate.
Qed.
Print Assumptions C24_first_last.
Example C24_case : Variants_first (bs "rozaj-1996-biske") = Ret (Some (bs "rozaj")) /\
  Variants_last (bs "rozaj-1996-biske") = Ret (Some (bs "biske")) /\ Variants_first [] = Ret None /\
  Variants_last [] = Ret None.
Proof. repeat split; vm_compute; reflexivity. Qed.

(** * C25 *)

Theorem C25_extension_parts : forall s, accepted ExtensionT s -> exists e, extension_ok e = true /\
  s = extension_text e /\ Extension_singleton s = Ret (e_singleton e) /\
  Singleton_new (e_singleton e) = Ok (e_singleton e) /\
  forall k, calls ExtensionIter_next k (Extension_iter s) = Ret (expected_next k (e_subtags e)).
Proof.
  intros s E. apply accepted_extension in E as (e & E & ->). exists e. split; [exact E|]. split; [reflexivity|].
  split; [destruct e as [b [|x l]]; reflexivity|]. split.
  - apply singleton_constructors. unfold extension_ok in E. rewrite !Bool.andb_true_iff in E. tauto.
  - intros k. rewrite ExtensionIter_next_eq. apply segment_calls, Extension_iter_spec, E.
Qed.
Print Assumptions C25_extension_parts.
Example C25_case : accepted ExtensionT (bs "u-co-phonebk") /\ Extension_singleton (bs "u-co-phonebk") = Ret "u"%byte /\
  calls ExtensionIter_next 4 (Extension_iter (bs "u-co-phonebk")) = Ret [Some (bs "co"); Some (bs "phonebk"); None; None].
Proof. repeat split; vm_compute; reflexivity. Qed.

(** * C26 *)

Theorem C26_extensions_iter : forall s, accepted ExtensionsT s -> exists l, extensions_ok l = true /\
  s = extensions_text l /\
  forall k, calls ExtensionsIter_next k (Extensions_iter s) = Ret (expected_next k (map extension_text l)).
Proof.
  intros s E. apply accepted_extensions in E as (l & L & ->). exists l. split; [exact L|]. split; [reflexivity|].
  intros k. apply extensions_calls, Extensions_iter_spec, L.
Qed.
Print Assumptions C26_extensions_iter.
Example C26_case : accepted ExtensionsT (bs "a-foo-bar-B-baz-a-qux") /\
  calls ExtensionsIter_next 4 (Extensions_iter (bs "a-foo-bar-B-baz-a-qux")) =
  Ret [Some (bs "a-foo-bar"); Some (bs "B-baz"); Some (bs "a-qux"); None].
Proof. split; vm_compute; reflexivity. Qed.

(** * C27 *)

Theorem C27_get : forall s, accepted ExtensionsT s -> exists l, extensions_ok l = true /\ s = extensions_text l /\
  forall c,
    (Extensions_get s c = Ret None /\ forall e, In e l -> e_singleton e <> c) \/
    (exists before e after, l = before ++ e :: after /\ e_singleton e = c /\
       (forall e', In e' before -> e_singleton e' <> c) /\ Extensions_get s c = Ret (Some (extension_text e))).
Proof.
  intros s E. apply accepted_extensions in E as (l & L & ->). exists l. split; [exact L|]. split; [reflexivity|].
  intros c. rewrite (Extensions_get_spec l c L). clear L.
  assert (Q : forall b, beq b c = true <-> b = c) by (intros b; unfold beq; split;
    [apply Strings.Byte.byte_dec_bl|apply Strings.Byte.byte_dec_lb]).
  induction l as [|e l [[I N]|(p & e' & q & -> & E & N & I)]].
  - left. split; [reflexivity|]. intros e [].
  - cbn [find]. destruct (beq (e_singleton e) c) eqn:B.
    + right. exists [], e, l. split; [reflexivity|]. split; [apply Q, B|]. split; [intros x []|reflexivity].
    + left. split; [exact I|]. intros x [<-|X]; [rewrite <- Q; congruence|apply N, X].
  - cbn [find]. destruct (beq (e_singleton e) c) eqn:B.
    + right. exists [], e, (p ++ e' :: q). split; [reflexivity|]. split; [apply Q, B|]. split; [intros x []|reflexivity].
    + right. exists (e :: p), e', q. split; [reflexivity|]. split; [exact E|]. split; [|exact I].
      intros x [<-|X]; [rewrite <- Q; congruence|apply N, X].
Qed.
Print Assumptions C27_get.
Example C27_case : accepted ExtensionsT (bs "a-bar-be-b-baz-qux-b-two") /\
  Extensions_get (bs "a-bar-be-b-baz-qux-b-two") "b"%byte = Ret (Some (bs "b-baz-qux")) /\
  Extensions_get (bs "a-bar-be-b-baz-qux-b-two") "q"%byte = Ret None.
Proof. repeat split; vm_compute; reflexivity. Qed.

(** * C28: false, the lookup compares bytes. *)

Definition C28_statement : Prop :=
  (forall e c c', accepted ExtensionsT e -> lower c = lower c' ->
     same_outcome same_opt (Extensions_get e c) (Extensions_get e c')) /\
  (forall e e' c, accepted ExtensionsT e -> accepted ExtensionsT e' -> same_ci e e' ->
     same_outcome same_opt (Extensions_get e c) (Extensions_get e' c)) /\
  (forall e e' b b', accepted ExtensionT e -> accepted ExtensionT e' -> same_ci e e' ->
     Extension_singleton e = Ret b -> Extension_singleton e' = Ret b' -> Singleton_eq b b' = true).
Theorem C28_refuted : ~ C28_statement.
Proof.
  intros (H & _). specialize (H (bs "u-co-abc") "u"%byte "U"%byte eq_refl eq_refl). vm_compute in H. exact H.
Qed.
(** Each of the three parts is false. *)
Theorem C28_each_refuted :
  ~ (forall e c c', accepted ExtensionsT e -> lower c = lower c' ->
     same_outcome same_opt (Extensions_get e c) (Extensions_get e c')) /\
  ~ (forall e e' c, accepted ExtensionsT e -> accepted ExtensionsT e' -> same_ci e e' ->
     same_outcome same_opt (Extensions_get e c) (Extensions_get e' c)) /\
  ~ (forall e e' b b', accepted ExtensionT e -> accepted ExtensionT e' -> same_ci e e' ->
     Extension_singleton e = Ret b -> Extension_singleton e' = Ret b' -> Singleton_eq b b' = true).
Proof.
  split; [|split]; intros H.
  - specialize (H (bs "u-co-abc") "u"%byte "U"%byte eq_refl eq_refl). vm_compute in H. exact H.
  - specialize (H (bs "u-co-abc") (bs "U-co-abc") "u"%byte eq_refl eq_refl eq_refl). vm_compute in H. exact H.
  - specialize (H (bs "u-co-abc") (bs "U-co-abc") "u"%byte "U"%byte eq_refl eq_refl eq_refl eq_refl eq_refl).
    vm_compute in H. discriminate.
Qed.
(** It holds of the digit singletons; singletons of == extensions agree up to case; and looking up under both
    cases of the singleton finds an extension in both or in neither of two == values. *)
Theorem C28_partial :
  (forall e e' c, accepted ExtensionsT e -> accepted ExtensionsT e' -> same_ci e e' -> is_digit c = true ->
     same_outcome same_opt (Extensions_get e c) (Extensions_get e' c)) /\
  (forall e e', accepted ExtensionT e -> accepted ExtensionT e' -> same_ci e e' ->
     exists b b', Extension_singleton e = Ret b /\ Extension_singleton e' = Ret b' /\ lower b = lower b') /\
  (forall e e' c, accepted ExtensionsT e -> accepted ExtensionsT e' -> same_ci e e' ->
     (exists c' x, lower c' = lower c /\ Extensions_get e c' = Ret (Some x)) ->
     (exists c' x, lower c' = lower c /\ Extensions_get e' c' = Ret (Some x))).
Proof. split; [exact get_ci_digit|]. split; [exact extension_singleton_ci|exact get_some_case]. Qed.
Print Assumptions C28_refuted.
Print Assumptions C28_each_refuted.
Print Assumptions C28_partial.
Example C28_case : accepted ExtensionsT (bs "1-AB-u-co") /\ accepted ExtensionsT (bs "1-ab-U-CO") /\
  same_ci (bs "1-AB-u-co") (bs "1-ab-U-CO") /\
  Extensions_get (bs "1-AB-u-co") "1"%byte = Ret (Some (bs "1-AB")) /\
  Extensions_get (bs "1-ab-U-CO") "1"%byte = Ret (Some (bs "1-ab")).
Proof. repeat split; vm_compute; reflexivity. Qed.

(** * C29 *)

Theorem C29_iter_extension : forall s c, accepted ExtensionsT s ->
  (Extensions_get s c = Ret None /\
   forall k, (let! it := Extensions_iter_extension s c in calls ExtensionIter_next k it) = Ret (expected_next k [])) \/
  (exists e, extension_ok e = true /\ e_singleton e = c /\ Extensions_get s c = Ret (Some (extension_text e)) /\
   forall k, (let! it := Extensions_iter_extension s c in calls ExtensionIter_next k it) =
             Ret (expected_next k (e_subtags e))).
Proof.
  intros s c E. apply accepted_extensions in E as (l & L & ->). rewrite (Extensions_get_spec l c L).
  destruct (find (fun e => beq (e_singleton e) c) l) as [e|] eqn:F.
  - right. exists e. apply find_some in F as F'. destruct F' as [I B]. cbv beta in B.
    split; [exact (in_forallb _ _ _ L I)|]. split; [apply Strings.Byte.byte_dec_bl, B|]. split; [reflexivity|].
    intros k. rewrite (iter_extension_spec l c k L), F. reflexivity.
  - left. split; [reflexivity|]. intros k. rewrite (iter_extension_spec l c k L), F. reflexivity.
Qed.
Print Assumptions C29_iter_extension.
Example C29_case :
  (let! it := Extensions_iter_extension (bs "a-foo-b-bar-baz-c-qux") "b"%byte in calls ExtensionIter_next 3 it) =
  Ret [Some (bs "bar"); Some (bs "baz"); None] /\ Extensions_get (bs "a-foo-b-bar-baz-c-qux") "d"%byte = Ret None.
Proof. split; vm_compute; reflexivity. Qed.

(** * C30 *)

Theorem C30_private_use_iter : forall s, accepted PrivateUseT s -> exists p, private_ok p = true /\
  s = private_text p /\
  forall k, calls PrivateUseIter_next k (PrivateUse_iter s) = Ret (expected_next k (p_subtags p)).
Proof.
  intros s E. apply accepted_private in E as (p & P & ->). exists p. split; [exact P|]. split; [reflexivity|].
  intros k. rewrite PrivateUseIter_next_eq. apply segment_calls, PrivateUse_iter_spec, P.
Qed.
Print Assumptions C30_private_use_iter.
Example C30_case : accepted PrivateUseT (bs "X-a-x-bcd") /\
  calls PrivateUseIter_next 4 (PrivateUse_iter (bs "X-a-x-bcd")) =
  Ret [Some (bs "a"); Some (bs "x"); Some (bs "bcd"); None].
Proof. split; vm_compute; reflexivity. Qed.

(** * C31 *)

Theorem C31_language_parts : forall s, accepted LanguageT s -> exists l, language_ok l = true /\ s = language_text l /\
  Language_primary s = l_primary l /\
  (l_extlangs l = [] -> Language_extension s = None) /\
  (l_extlangs l <> [] -> Language_extension s = Some (join (l_extlangs l))) /\
  (forall k, calls LanguageExtensionIter_next k (Language_extension_subtags s) = Ret (expected_next k (l_extlangs l))) /\
  length (l_extlangs l) <= 3 /\
  (match Language_extension s with
   | Some x => Language_primary s ++ dash :: x
   | None => Language_primary s
   end) = s.
Proof.
  intros s E. apply accepted_language in E as (l & L & ->). exists l. split; [exact L|]. split; [reflexivity|].
  rewrite (Language_primary_spec l L), (Language_extension_spec l L). split; [reflexivity|].
  split; [intros ->; reflexivity|]. split; [destruct (l_extlangs l); congruence|].
  split; [intros k; rewrite LanguageExtensionIter_next_eq; apply segment_calls, Language_extension_subtags_spec, L|].
  split; [apply language_extlangs, L|]. unfold language_text, language_subtags.
  destruct (l_extlangs l); reflexivity.
Qed.
Theorem C31_extlang_iter : forall s, accepted LanguageExtensionT s -> exists l, extlangs_ok l = true /\ s = join l /\
  forall k, calls LanguageExtensionIter_next k (LanguageExtension_iter s) = Ret (expected_next k l).
Proof.
  intros s E. apply accepted_extlang in E as (l & L & ->). exists l. split; [exact L|]. split; [reflexivity|].
  intros k. rewrite LanguageExtensionIter_next_eq. apply segment_calls, LanguageExtension_iter_spec, L.
Qed.
Print Assumptions C31_language_parts.
Print Assumptions C31_extlang_iter.
Example C31_case : accepted LanguageT (bs "zh-cmn-yue") /\ Language_primary (bs "zh-cmn-yue") = bs "zh" /\
  Language_extension (bs "zh-cmn-yue") = Some (bs "cmn-yue") /\ Language_extension (bs "klingon") = None /\
  calls LanguageExtensionIter_next 3 (Language_extension_subtags (bs "zh-cmn-yue")) =
  Ret [Some (bs "cmn"); Some (bs "yue"); None].
Proof. repeat split; vm_compute; reflexivity. Qed.

(** * C33 *)

Theorem C33_bytes : forall b,
  (singleton_ok b = true <-> matches abnf_singleton [b]) /\
  (singleton_ok b = true ->
     Singleton_new b = Ok b /\ Singleton_try_from_u8 b = Ok b /\ Singleton_try_from_char (code b) = Ok b /\
     Singleton_from_string [b] = Ret (Ok b) /\ Singleton_from_str [b] = Ret (Ok b)) /\
  (singleton_ok b = false ->
     Singleton_new b = Err b /\ Singleton_try_from_u8 b = Err b /\ Singleton_try_from_char (code b) = Err (code b) /\
     ((code b < 128)%N -> Singleton_from_string [b] = Ret (Err [b]) /\ Singleton_from_str [b] = Ret (Err [b]))).
Proof. exact singleton_constructors. Qed.
Theorem C33_others :
  (forall c, (256 <= c)%N -> Singleton_try_from_char c = Err c) /\
  (forall s, length s <> 1 -> Singleton_from_string s = Ret (Err s) /\ Singleton_from_str s = Ret (Err s)).
Proof. split; [exact singleton_char|exact singleton_length]. Qed.
Theorem C33_value : forall b c, Singleton_unwrap b = b /\ (Singleton_eq_u8 b c = true <-> c = b) /\
  forall n, Singleton_eq_char b n = true <-> n = code b.
Proof. exact singleton_value. Qed.
Print Assumptions C33_bytes.
Print Assumptions C33_others.
Print Assumptions C33_value.
Example C33_case : singleton_ok "7"%byte = true /\ singleton_ok "W"%byte = true /\ singleton_ok "X"%byte = false /\
  singleton_ok "-"%byte = false /\ Singleton_try_from_char 233 = Err 233%N /\ Singleton_try_from_char 353 = Err 353%N.
Proof. repeat split; vm_compute; reflexivity. Qed.

(** * C40: iterators are finite and fused, from any state *)

Theorem C40_fused :
  (forall k it rs, calls PrivateUseIter_next k it = Ret rs ->
     exists l n, rs = map Some l ++ repeat None n /\ length l <= length (it_data it) - it_offset it) /\
  (forall k it rs, calls ExtensionIter_next k it = Ret rs ->
     exists l n, rs = map Some l ++ repeat None n /\ length l <= length (it_data it) - it_offset it) /\
  (forall k it rs, calls LanguageExtensionIter_next k it = Ret rs ->
     exists l n, rs = map Some l ++ repeat None n /\ length l <= length (it_data it) - it_offset it) /\
  (forall k it rs, calls ExtensionsIter_next k it = Ret rs ->
     exists l n, rs = map Some l ++ repeat None n /\ length l <= length (it_data it) - it_offset it) /\
  (forall ops it rs, calls_de VariantsIter_next VariantsIter_next_back ops it = Ret rs ->
     exists l n, rs = map Some l ++ repeat None n /\ length l <= v_end it - v_offset it).
Proof.
  rewrite PrivateUseIter_next_eq, ExtensionIter_next_eq, LanguageExtensionIter_next_eq.
  split; [exact segment_fused|]. split; [exact segment_fused|]. split; [exact segment_fused|].
  split; [exact extensions_fused|exact variants_fused].
Qed.
(** The iterators over subtags give exactly the pieces between the '-', from any position of any ASCII text.  A last piece
    that is empty is not given. *)
Theorem C40_pieces : forall d o, (forall b, In b d -> (code b < 128)%N) -> exists l,
  Forall (fun x => ~ In dash x) l /\
  (skipn o d = [] /\ l = [] \/ skipn o d = join l /\ last l [] <> [] \/ skipn o d = join l ++ [dash] /\ l <> []) /\
  forall k, calls PrivateUseIter_next k (Iter d o) = Ret (expected_next k l) /\
    calls ExtensionIter_next k (Iter d o) = Ret (expected_next k l) /\
    calls LanguageExtensionIter_next k (Iter d o) = Ret (expected_next k l).
Proof.
  intros d o A'. assert (A : Scan.ascii d = true) by (apply forallb_forall; intros b I; apply N.ltb_lt, A', I).
  destruct (cut_exists (skipn o d)) as (l & C). exists l. split; [|split; [apply C|]].
  - destruct C as [D _]. apply Forall_forall. intros x X I. apply (proj1 (forallb_forall _ _) D) in X.
    apply (proj1 (forallb_forall _ _) X) in I. discriminate.
  - intros k. rewrite PrivateUseIter_next_eq, ExtensionIter_next_eq, LanguageExtensionIter_next_eq.
    pose proof (segment_cut_calls d o l k A C). auto.
Qed.
(** [empty()] and [Default::default()]. *)
Theorem C40_default :
  (forall k, calls PrivateUseIter_next k iter_default = Ret (repeat None k)) /\
  (forall k, calls ExtensionIter_next k iter_default = Ret (repeat None k)) /\
  (forall k, calls LanguageExtensionIter_next k iter_default = Ret (repeat None k)) /\
  (forall ops, calls_de VariantsIter_next VariantsIter_next_back ops viter_default = Ret (repeat None (length ops))).
Proof. exact default_empty. Qed.
Print Assumptions C40_fused.
Print Assumptions C40_pieces.
Print Assumptions C40_default.
Example C40_case : calls ExtensionIter_next 3 (Iter (bs "--ab") 1) = Ret [Some []; Some (bs "ab"); None] /\
  calls_de VariantsIter_next VariantsIter_next_back [Back; Front; Back] (VIter (bs "a-b-c") 2 5) =
  Ret [Some (bs "c"); Some (bs "b"); None].
Proof. split; vm_compute; reflexivity. Qed.

(** * C48: concatenation *)

Theorem C48_get_concat : forall e f c, accepted ExtensionsT e -> accepted ExtensionsT f ->
  accepted ExtensionsT (join_present [e; f]) /\
  Extensions_get (join_present [e; f]) c =
  let! x := Extensions_get e c in match x with Some y => Ret (Some y) | None => Extensions_get f c end.
Proof. exact get_concat. Qed.
Theorem C48_extensions_concat : forall e f, accepted ExtensionsT e -> accepted ExtensionsT f ->
  exists l m, extensions_ok l = true /\ e = extensions_text l /\ extensions_ok m = true /\ f = extensions_text m /\
    forall k, calls ExtensionsIter_next k (Extensions_iter (join_present [e; f])) =
      Ret (expected_next k (map extension_text l ++ map extension_text m)).
Proof.
  intros e f E F. apply accepted_extensions in E as (l & L & ->). apply accepted_extensions in F as (m & M & ->).
  exists l, m. do 2 (split; [assumption|]; split; [reflexivity|]). intros k.
  destruct (extensions_concat l m L M) as [E O]. rewrite E, <- map_app.
  apply extensions_calls, Extensions_iter_spec, O.
Qed.
Theorem C48_variants_concat : forall v w, accepted VariantsT v -> accepted VariantsT w ->
  exists l m, variants_ok l = true /\ v = join l /\ variants_ok m = true /\ w = join m /\
    accepted VariantsT (join_present [v; w]) /\
    forall ops, calls_de VariantsIter_next VariantsIter_next_back ops (Variants_iter (join_present [v; w])) =
      Ret (deque_run ops (l ++ m)).
Proof.
  intros v w V W. apply accepted_variants in V as (l & L & ->). apply accepted_variants in W as (m & M & ->).
  exists l, m. do 2 (split; [assumption|]; split; [reflexivity|]).
  destruct (variants_concat l m L M) as [E O]. rewrite E. split; [apply accepted_variants; exists (l ++ m); auto|].
  intros ops. apply variants_calls, Variants_iter_spec, O.
Qed.
Print Assumptions C48_get_concat.
Print Assumptions C48_extensions_concat.
Print Assumptions C48_variants_concat.
Example C48_case : accepted ExtensionsT (bs "a-foo") /\ accepted ExtensionsT (bs "b-bar-a-baz") /\
  Extensions_get (join_present [bs "a-foo"; bs "b-bar-a-baz"]) "a"%byte = Ret (Some (bs "a-foo")) /\
  Extensions_get (join_present [bs "a-foo"; bs "b-bar-a-baz"]) "b"%byte = Ret (Some (bs "b-bar")).
Proof. repeat split; vm_compute; reflexivity. Qed.

(** * C51: collecting *)

Theorem C51_variants_collect : forall v, accepted VariantsT v -> exists l, variants_ok l = true /\ v = join l /\
  forall n, length l < n ->
    collect VariantsIter_next n (Variants_iter v) = Ret l /\
    collect VariantsIter_next_back n (Variants_iter v) = Ret (rev l).
Proof.
  intros v V. apply accepted_variants in V as (l & L & ->). exists l. split; [exact L|]. split; [reflexivity|].
  exact (variants_collect l L).
Qed.
Theorem C51_extensions_collect : forall s, accepted ExtensionsT s -> exists l, extensions_ok l = true /\
  s = extensions_text l /\
  forall n, length l < n -> collect ExtensionsIter_next n (Extensions_iter s) = Ret (map extension_text l).
Proof.
  intros s V. apply accepted_extensions in V as (l & L & ->). exists l. split; [exact L|]. split; [reflexivity|].
  exact (extensions_collect l L).
Qed.
Print Assumptions C51_variants_collect.
Print Assumptions C51_extensions_collect.
Example C51_case : collect VariantsIter_next_back 4 (Variants_iter (bs "rozaj-1996-biske")) =
  Ret [bs "biske"; bs "1996"; bs "rozaj"].
Proof. vm_compute. reflexivity. Qed.
