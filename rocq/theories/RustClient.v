(** What a program that uses the crate can get hold of: the functions that the crate offers, with the types of their
    parameters as the text declares them, and the values that any sequence of calls of them leads to. *)
From Verif Require Import Base GrammarRs Validate Utils Grandfathered Normal LangTag Newtypes Derived Spec Observe
  Grammar Accept Case Parse Access Iter Kind Parts Values.
From Verif Require Import RustText RustSyntax RustEval RustProgram RustRefine RustGrammar RustValidate RustNormal RustAccess
  RustTags RustLib RustSays.
Import Base.
Open Scope string_scope.
Open Scope nat_scope.
Open Scope list_scope.

(** * 1. Functions and their types *)

(** Functions that no other crate can name: free functions (normal/mod.rs:181-235 and those of the private module
    [utils], lib.rs:39), what is in the module [grammar] (lib.rs:66, [pub(crate)]), and the methods without [pub]
    (normal/mod.rs:34-146, normal/private_use.rs:58, normal/variant.rs:116, normal/extension.rs:165 and 278,
    normal/language/extlang.rs:68). *)
Definition hidden_methods : list (string * string) :=
  [ ("NormalLangTag", "language_end"); ("NormalLangTag", "script_range"); ("NormalLangTag", "region_range");
    ("NormalLangTag", "variants_range"); ("NormalLangTag", "extensions_range"); ("NormalLangTag", "private_use_offset");
    ("PrivateUseIter", "new"); ("VariantsIter", "new"); ("ExtensionIter", "new"); ("ExtensionsIter", "new");
    ("LanguageExtensionIter", "new") ].
Definition hidden (e : entry) : bool :=
  String.eqb (en_type e) "" || String.prefix "grammar::" (en_type e) ||
  existsb (fun h => String.eqb (fst h) (en_type e) && String.eqb (snd h) (fn_name (en_fn e))) hidden_methods.
(** The functions of a text in order, and whether [pub] is before [fn], or before [const fn]. *)
Fixpoint marks (prev ts : list token) : list (string * bool) :=
  match ts with
  | TId "fn" :: TId x :: r =>
      (x, match prev with TId "pub" :: _ | TId "const" :: TId "pub" :: _ => true | _ => false end) :: marks [] r
  | t :: r => marks (t :: firstn 1 prev) r
  | [] => []
  end.
Definition marked : list (string * bool) :=
  flat_map (fun f => match tokens (snd f) with Some ts => marks [] ts | None => [] end) files.
(** [hidden] is what the text says: apart from free functions and [grammar], the functions that are not [pub] and that are
    not of a trait.  (The program has the functions in the opposite order.) *)
Lemma hidden_is_private : map fst marked = map (fun e => fn_name (en_fn e)) (rev (fns crate)) /\
  map hidden (rev (fns crate)) =
  map (fun p => let '(e, public) := p in String.eqb (en_type e) "" || String.prefix "grammar::" (en_type e) ||
         (match en_trait e with None => negb public | Some _ => false end))
    (combine (rev (fns crate)) (map snd marked)).
Proof. split; vm_compute; reflexivity. Qed.
(** The name to call it by. *)
Definition path_of (e : entry) : list string :=
  let m := fn_name (en_fn e) in
  if String.eqb (en_type e) "" then [m] else
  match en_trait e with
  | Some (TyPath p [TyPath [y] []]) => [en_type e; "as"; last p ""; y; m]
  | Some (TyPath p []) => if String.eqb m "fmt" then [en_type e; "as"; last p ""; ""; m] else [en_type e; m]
  | _ => [en_type e; m]
  end.
(** The types of its arguments, the receiver first. *)
Fixpoint of_self (x : string) (t : ty) : ty :=
  match t with
  | TyPath ["Self"] [] => TyPath [x] []
  | TyRef m t => TyRef m (of_self x t)
  | t => t
  end.
Definition signature (e : entry) : list ty :=
  (match fn_self (en_fn e) with NoSelf => [] | _ => [TyPath [en_type e] []] end) ++
  map (fun p => of_self (en_type e) (snd p)) (fn_params (en_fn e)).
(** The functions of the text that are not hidden, and the [new] that str_newtype generates. *)
Inductive offered (P : program) : list string -> list ty -> Prop :=
| offered_fn e : In e (fns P) -> hidden e = false -> offered P (path_of e) (signature e)
| offered_new x attrs fs : In (x, attrs, fs) (structs P) -> automaton_attr attrs <> None -> offered P [x; "new"] [TyPath ["T"] []].

(** The values of a type: by the declarations of structs and enums in the text.  [TypedLangTag] is lib.rs:218-222. The
    type parameter [T] of [new] stands for [str] and [[u8]], [H] and [Formatter] for something to write to. *)
Inductive has_type (P : program) : ty -> value -> Prop :=
| ht_u8 b : has_type P (TyPath ["u8"] []) (VByte b)
| ht_usize n : has_type P (TyPath ["usize"] []) (VNat n)
| ht_char c : has_type P (TyPath ["char"] []) (VChar c)
| ht_str s : has_type P (TyPath ["str"] []) (VStr s)
| ht_slice s : has_type P (TySlice (TyPath ["u8"] [])) (VBytes s)
| ht_ref m t v : has_type P t v -> has_type P (TyRef m t) v
| ht_struct x attrs fs vs : In (x, attrs, fs) (structs P) -> map fst vs = map fst fs ->
    Forall2 (has_type P) (map snd fs) (map snd vs) -> has_type P (TyPath [x] []) (VStruct x vs)
| ht_enum x cs c : In (x, cs) (enums P) -> In (c, 0) cs -> has_type P (TyPath [x] []) (VEnum x c [])
| ht_normal v : has_type P (TyPath ["NormalLangTag"] []) v ->
    has_type P (TyPath ["TypedLangTag"] []) (VEnum "TypedLangTag" "Normal" [v])
| ht_private v : has_type P (TyPath ["PrivateUse"] []) v ->
    has_type P (TyPath ["TypedLangTag"] []) (VEnum "TypedLangTag" "PrivateUse" [v])
| ht_grandfathered v : has_type P (TyPath ["GrandfatheredLangTag"] []) v ->
    has_type P (TyPath ["TypedLangTag"] []) (VEnum "TypedLangTag" "Grandfathered" [v])
| ht_T_str s : has_type P (TyPath ["T"] []) (VStr s)
| ht_T_bytes s : has_type P (TyPath ["T"] []) (VBytes s)
| ht_H l : has_type P (TyPath ["H"] []) (VSink l)
| ht_formatter l : has_type P (TyPath ["fmt"; "Formatter"] []) (VSink l).

(** * 2. Clients *)

(** Valid UTF-8, which every [&str] is: from [i] on, decoding one character after the other leads to the end. *)
Inductive utf8_from (s : bytes) : nat -> Prop :=
| utf8_end : utf8_from s (length s)
| utf8_next i c k : decode_utf8_char s i = Some (c, k) -> utf8_from s (i + k) -> utf8_from s i.
Definition utf8 (s : bytes) : Prop := utf8_from s 0.
(** What matching on an enum gives, and the public field of an error. *)
Inductive part : value -> value -> Prop :=
| part_enum t c l v : In v l -> part v (VEnum t c l)
| part_invalid x v : part v (tuple1 ("Invalid" ++ x) v).
(** The values a client can have: strings, bytes, characters; enums; and the results of calling what is offered, [R]
    being what calls give.  (The public constants [EMPTY], normal/variant.rs:67 and normal/extension.rs:212, are what [new]
    gives for the empty string.) *)
Inductive reached (P : program) (R : list string -> list value -> outcome (value * list value) -> Prop) : value -> Prop :=
| reached_str s : utf8 s -> reached P R (VStr s)
| reached_bytes s : reached P R (VBytes s)
| reached_byte b : reached P R (VByte b)
| reached_char c : reached P R (VChar c)
| reached_sink l : reached P R (VSink l)
| reached_enum x cs c : In (x, cs) (enums P) -> In (c, 0) cs -> reached P R (VEnum x c [])
| reached_typed c v : has_type P (TyPath ["TypedLangTag"] []) (VEnum "TypedLangTag" c [v]) -> reached P R v ->
    reached P R (VEnum "TypedLangTag" c [v])
| reached_result f tys args v outs : offered P f tys -> Forall2 (has_type P) tys args ->
    (forall a, In a args -> reached P R a) -> R f args (Ret (v, outs)) -> reached P R v
| reached_mut f tys args v outs w : offered P f tys -> Forall2 (has_type P) tys args ->
    (forall a, In a args -> reached P R a) -> R f args (Ret (v, outs)) -> In w outs -> reached P R w
| reached_part v w : reached P R v -> part w v -> reached P R w.

(** * 3. What is offered, computed *)

Definition api : list (list string * list ty) :=
  Eval vm_compute in map (fun e => (path_of e, signature e)) (filter (fun e => negb (hidden e)) (fns crate)).
Lemma api_eq : map (fun e => (path_of e, signature e)) (filter (fun e => negb (hidden e)) (fns crate)) = api.
Proof. vm_cast_no_check (eq_refl api). Qed.
(** The names are those of the functions. *)
Lemma paths_resolve : forall e, In e (fns crate) -> resolve crate (path_of e) = TgFn (en_type e) (en_fn e).
Proof.
  assert (H : map (fun e => resolve crate (path_of e)) (fns crate) = map (fun e => TgFn (en_type e) (en_fn e)) (fns crate))
    by (vm_compute; reflexivity).
  intros e E. exact (proj1 map_ext_in_iff H e E).
Qed.
Definition new_types : list string :=
  Eval vm_compute in map (fun s => fst (fst s)) (filter (fun s => match automaton_attr (snd (fst s)) with Some _ => true | None => false end)
    (structs crate)).
Lemma new_types_eq : map (fun s => fst (fst s)) (filter (fun s => match automaton_attr (snd (fst s)) with Some _ => true | None => false end)
    (structs crate)) = new_types.
Proof. vm_cast_no_check (eq_refl new_types). Qed.
Lemma offered_api f tys : offered crate f tys -> In (f, tys) api \/ exists x, In x new_types /\ f = [x; "new"] /\ tys = [TyPath ["T"] []].
Proof.
  intros [e E H|x attrs fs I A].
  - left. rewrite <- api_eq. apply in_map_iff. exists e. split; [reflexivity|]. apply filter_In. split; [exact E|]. now rewrite H.
  - right. exists x. split; [|auto]. rewrite <- new_types_eq. apply in_map_iff. exists (x, attrs, fs). split; [reflexivity|].
    apply filter_In. split; [exact I|]. cbn [fst snd]. destruct (automaton_attr attrs); [reflexivity|contradiction].
Qed.

(** * 4. Values of the types *)

Definition shapes : list (string * list (string * ty)) := Eval vm_compute in map (fun s => (fst (fst s), snd s)) (structs crate).
Lemma shapes_eq : map (fun s => (fst (fst s), snd s)) (structs crate) = shapes.
Proof. vm_cast_no_check (eq_refl shapes). Qed.
Definition variants_of : list (string * list (string * nat)) := Eval vm_compute in enums crate.
Lemma variants_of_eq : enums crate = variants_of.
Proof. vm_cast_no_check (eq_refl variants_of). Qed.
(** The first declaration of a name is the only one. *)
Fixpoint assoc {A} (x : string) (l : list (string * A)) : option A :=
  match l with (y, a) :: l' => if String.eqb x y then Some a else assoc x l' | [] => None end.
Lemma assoc_in {A} x (a : A) l : NoDup (map fst l) -> In (x, a) l -> assoc x l = Some a.
Proof.
  induction l as [|[y b] l IH]; intros N I; [destruct I|]. cbn [assoc]. inversion N as [|? ? N1 N2]; subst.
  destruct I as [I|I].
  - injection I as -> ->. now rewrite String.eqb_refl.
  - destruct (String.eqb_spec x y) as [->|_]; [|now apply IH]. destruct N1. apply in_map_iff. exists (y, a). auto.
Qed.
Lemma shapes_once : NoDup (map fst shapes).
Proof.
  apply (NoDup_count_occ' string_dec). intros x I. cbn in I.
  repeat (destruct I as [<-|I]; [vm_compute; reflexivity|]). destruct I.
Qed.
Lemma variants_once : NoDup (map fst variants_of).
Proof.
  apply (NoDup_count_occ' string_dec). intros x I. cbn in I.
  repeat (destruct I as [<-|I]; [vm_compute; reflexivity|]). destruct I.
Qed.
Lemma struct_fields x attrs fs : In (x, attrs, fs) (structs crate) -> assoc x shapes = Some fs.
Proof.
  intros I. apply assoc_in; [exact shapes_once|]. rewrite <- shapes_eq. apply in_map_iff. exists (x, attrs, fs). auto.
Qed.
Lemma enum_cases x cs : In (x, cs) (enums crate) -> assoc x variants_of = Some cs.
Proof. intros I. apply assoc_in; [exact variants_once|]. now rewrite <- variants_of_eq. Qed.

Ltac no_decl :=
  match goal with
  | I : In (_, _, _) (structs crate) |- _ => apply struct_fields in I; discriminate I
  | I : In (_, _) (enums crate) |- _ => apply enum_cases in I; discriminate I
  end.
Lemma type_u8 v : has_type crate (TyPath ["u8"] []) v -> exists b, v = VByte b.
Proof. intros H. inversion H; subst; [now eexists|no_decl..]. Qed.
Lemma type_usize v : has_type crate (TyPath ["usize"] []) v -> exists n, v = VNat n.
Proof. intros H. inversion H; subst; [now eexists|no_decl..]. Qed.
Lemma type_char v : has_type crate (TyPath ["char"] []) v -> exists c, v = VChar c.
Proof. intros H. inversion H; subst; [now eexists|no_decl..]. Qed.
Lemma type_str v : has_type crate (TyPath ["str"] []) v -> exists s, v = VStr s.
Proof. intros H. inversion H; subst; [now eexists|no_decl..]. Qed.
Lemma type_slice v : has_type crate (TySlice (TyPath ["u8"] [])) v -> exists s, v = VBytes s.
Proof. intros H. inversion H; subst. now eexists. Qed.
Lemma type_ref m t v : has_type crate (TyRef m t) v -> has_type crate t v.
Proof. intros H. now inversion H. Qed.
Lemma type_T v : has_type crate (TyPath ["T"] []) v -> exists s, v = VStr s \/ v = VBytes s.
Proof. intros H. inversion H; subst; [no_decl|no_decl|eexists; eauto..]. Qed.
Lemma type_H v : has_type crate (TyPath ["H"] []) v -> exists l, v = VSink l.
Proof. intros H. inversion H; subst; [no_decl|no_decl|now eexists]. Qed.
Lemma type_formatter v : has_type crate (TyPath ["fmt"; "Formatter"] []) v -> exists l, v = VSink l.
Proof. intros H. inversion H; subst. now eexists. Qed.
Lemma type_struct x fs v : assoc x shapes = Some fs -> assoc x variants_of = None ->
  existsb (String.eqb x) ["u8"; "usize"; "char"; "str"; "TypedLangTag"; "T"; "H"] = false ->
  has_type crate (TyPath [x] []) v ->
  exists vs, v = VStruct x vs /\ map fst vs = map fst fs /\ Forall2 (has_type crate) (map snd fs) (map snd vs).
Proof.
  intros A B C H. inversion H; subst; try discriminate C.
  - match goal with I : In (_, _, _) (structs crate) |- _ => apply struct_fields in I; rewrite A in I; injection I as <- end.
    eexists. split; [reflexivity|]. auto.
  - match goal with I : In (_, _) (enums crate) |- _ => apply enum_cases in I; rewrite B in I; discriminate I end.
Qed.
Lemma type_tag ty v : has_type crate (TyPath [type_of ty] []) v -> exists s, v = vtag ty s.
Proof.
  intros H. assert (X : exists vs, v = VStruct (type_of ty) vs /\ map fst vs = ["0"] /\ Forall2 (has_type crate) [TyPath ["str"] []] (map snd vs))
    by (apply (type_struct (type_of ty) [("0", TyPath ["str"] [])] v); [destruct ty; reflexivity..|exact H]).
  destruct X as (vs & -> & E & F). destruct vs as [|[b w] [|]]; try discriminate E. injection E as ->.
  inversion F; subst. match goal with T : has_type _ _ w |- _ => apply type_str in T as (s & ->) end. exists s. reflexivity.
Qed.
Lemma type_singleton v : has_type crate (TyPath ["Singleton"] []) v -> exists b, v = vsingleton b.
Proof.
  intros H. destruct (type_struct "Singleton" [("0", TyPath ["u8"] [])] v eq_refl eq_refl eq_refl H) as (vs & -> & E & F).
  destruct vs as [|[b w] [|]]; try discriminate E. injection E as ->.
  inversion F; subst. match goal with T : has_type _ _ w |- _ => apply type_u8 in T as (s & ->) end. exists s. reflexivity.
Qed.
Lemma type_iter x v : In x ["PrivateUseIter"; "ExtensionIter"; "LanguageExtensionIter"; "ExtensionsIter"] ->
  has_type crate (TyPath [x] []) v -> exists it, v = viter_of x it.
Proof.
  intros X H. assert (Y : exists vs, v = VStruct x vs /\ map fst vs = ["data"; "offset"] /\
      Forall2 (has_type crate) [TyRef false (TyPath ["str"] []); TyPath ["usize"] []] (map snd vs))
    by (cbn in X; decompose [or] X; subst; try contradiction; (apply (fun A B C => type_struct _ [("data", TyRef false (TyPath ["str"] [])); ("offset", TyPath ["usize"] [])] v A B C H); reflexivity)).
  destruct Y as (vs & -> & E & F). destruct vs as [|[b w] [|[b' w'] [|]]]; try discriminate E. injection E as -> ->.
  inversion F as [|? ? ? ? T1 F']; subst. inversion F' as [|? ? ? ? T2 _]; subst.
  apply type_ref, type_str in T1 as (s & ->). apply type_usize in T2 as (n & ->). exists (Iter s n). reflexivity.
Qed.
Lemma type_viter v : has_type crate (TyPath ["VariantsIter"] []) v -> exists it, v = vviter it.
Proof.
  intros H. destruct (type_struct "VariantsIter" [("data", TyRef false (TyPath ["str"] [])); ("offset", TyPath ["usize"] []);
    ("end", TyPath ["usize"] [])] v eq_refl eq_refl eq_refl H) as (vs & -> & E & F).
  destruct vs as [|[b w] [|[b' w'] [|[b'' w''] [|]]]]; try discriminate E. injection E as -> -> ->.
  inversion F as [|? ? ? ? T1 F']; subst. inversion F' as [|? ? ? ? T2 F'']; subst. inversion F'' as [|? ? ? ? T3 _]; subst.
  apply type_ref, type_str in T1 as (s & ->). apply type_usize in T2 as (n & ->). apply type_usize in T3 as (m & ->).
  exists (VIter s n m). reflexivity.
Qed.
Lemma type_kind v : has_type crate (TyPath ["Kind"] []) v -> exists k, v = vkind k.
Proof.
  intros H. inversion H; subst; [no_decl|].
  match goal with I : In (_, _) (enums crate) |- _ => apply enum_cases in I; cbn in I; injection I as <- end.
  match goal with I : In (_, 0) _ |- _ => cbn in I; decompose [or] I; clear I end; try contradiction;
    match goal with E : (_, _) = (_, _) |- _ => injection E as <- end;
    [exists KNormal|exists KPrivateUse|exists KGrandfathered]; reflexivity.
Qed.
Lemma type_grandfathered v : has_type crate (TyPath ["GrandfatheredLangTag"] []) v -> exists g, v = vgrandfathered g.
Proof.
  intros H. inversion H; subst; [no_decl|].
  match goal with I : In (_, _) (enums crate) |- _ => apply enum_cases in I; cbn in I; injection I as <- end.
  assert (X : exists g, c = grandfathered_name g).
  { match goal with I : In (_, 0) _ |- _ => cbn in I; repeat destruct I as [I|I]; try contradiction; injection I as <- end;
    [exists EnGbOed|exists IAmi|exists IBnn|exists IDefault|exists IEnochian|exists IHak|exists IKlingon|exists ILux
    |exists IMingo|exists INavajo|exists IPwn|exists ITao|exists ITay|exists ITsu|exists SgnBeFr|exists SgnBeNl
    |exists SgnChDe|exists ArtLojban|exists CelGaulish|exists NoBok|exists NoNyn|exists ZhGuoyu|exists ZhHakka
    |exists ZhMin|exists ZhMinNan|exists ZhXiang]; reflexivity. }
  destruct X as (g & ->). exists g. reflexivity.
Qed.
Lemma type_typed v : has_type crate (TyPath ["TypedLangTag"] []) v -> exists t, v = vtyped t.
Proof.
  intros H. inversion H; subst.
  - no_decl.
  - match goal with I : In (_, _) (enums crate) |- _ => apply enum_cases in I; cbn in I; injection I as <- end.
    match goal with I : In (_, 0) _ |- _ => cbn in I; decompose [or] I; try contradiction; discriminate end.
  - match goal with T : has_type _ _ v0 |- _ => apply (type_tag NormalLangTagT) in T as (s & ->) end. exists (TNormal s). reflexivity.
  - match goal with T : has_type _ _ v0 |- _ => apply (type_tag PrivateUseT) in T as (s & ->) end. exists (TPrivateUse s). reflexivity.
  - match goal with T : has_type _ _ v0 |- _ => apply type_grandfathered in T as (g & ->) end. exists (TGrandfathered g). reflexivity.
Qed.

(** * 5. The model says what each does on every value of its types *)

Lemma args0 (R : ty -> value -> Prop) args : Forall2 R [] args -> args = [].
Proof. intros H. now inversion H. Qed.
Lemma args1 (R : ty -> value -> Prop) t args : Forall2 R [t] args -> exists v, args = [v] /\ R t v.
Proof. intros H. inversion H as [|? v ? ? A B]; subst. apply args0 in B as ->. eauto. Qed.
Lemma args2 (R : ty -> value -> Prop) t t' args : Forall2 R [t; t'] args -> exists v v', args = [v; v'] /\ R t v /\ R t' v'.
Proof. intros H. inversion H as [|? v ? ? A B]; subst. apply args1 in B as (v' & -> & B). eauto. Qed.

Ltac type_step H :=
  lazymatch type of H with
  | has_type _ (TyRef _ _) _ => apply type_ref in H; type_step H
  | has_type _ (TyPath ["u8"] []) _ => apply type_u8 in H as (? & ->)
  | has_type _ (TyPath ["char"] []) _ => apply type_char in H as (? & ->)
  | has_type _ (TyPath ["str"] []) _ => apply type_str in H as (? & ->)
  | has_type _ (TySlice _) _ => apply type_slice in H as (? & ->)
  | has_type _ (TyPath ["H"] []) _ => apply type_H in H as (? & ->)
  | has_type _ (TyPath ["T"] []) _ => apply type_T in H as (? & [-> | ->])
  | has_type _ (TyPath ["fmt"; "Formatter"] []) _ => apply type_formatter in H as (? & ->)
  | has_type _ (TyPath ["Singleton"] []) _ => apply type_singleton in H as (? & ->)
  | has_type _ (TyPath ["VariantsIter"] []) _ => apply type_viter in H as (? & ->)
  | has_type _ (TyPath ["Kind"] []) _ => apply type_kind in H as (? & ->)
  | has_type _ (TyPath ["GrandfatheredLangTag"] []) _ => apply type_grandfathered in H as (? & ->)
  | has_type _ (TyPath ["TypedLangTag"] []) _ => apply type_typed in H as (? & ->)
  | has_type _ (TyPath ["LangTag"] []) _ => apply (type_tag LangTagT) in H as (? & ->)
  | has_type _ (TyPath ["NormalLangTag"] []) _ => apply (type_tag NormalLangTagT) in H as (? & ->)
  | has_type _ (TyPath ["PrivateUse"] []) _ => apply (type_tag PrivateUseT) in H as (? & ->)
  | has_type _ (TyPath ["PrivateUseSubtag"] []) _ => apply (type_tag PrivateUseSubtagT) in H as (? & ->)
  | has_type _ (TyPath ["Language"] []) _ => apply (type_tag LanguageT) in H as (? & ->)
  | has_type _ (TyPath ["PrimaryLanguage"] []) _ => apply (type_tag PrimaryLanguageT) in H as (? & ->)
  | has_type _ (TyPath ["LanguageExtension"] []) _ => apply (type_tag LanguageExtensionT) in H as (? & ->)
  | has_type _ (TyPath ["ExtendedLangTag"] []) _ => apply (type_tag ExtendedLangTagT) in H as (? & ->)
  | has_type _ (TyPath ["Script"] []) _ => apply (type_tag ScriptT) in H as (? & ->)
  | has_type _ (TyPath ["Region"] []) _ => apply (type_tag RegionT) in H as (? & ->)
  | has_type _ (TyPath ["Variant"] []) _ => apply (type_tag VariantT) in H as (? & ->)
  | has_type _ (TyPath ["Variants"] []) _ => apply (type_tag VariantsT) in H as (? & ->)
  | has_type _ (TyPath ["Extension"] []) _ => apply (type_tag ExtensionT) in H as (? & ->)
  | has_type _ (TyPath ["ExtensionSubtag"] []) _ => apply (type_tag ExtensionSubtagT) in H as (? & ->)
  | has_type _ (TyPath ["Extensions"] []) _ => apply (type_tag ExtensionsT) in H as (? & ->)
  | has_type _ (TyPath [_] []) _ => apply type_iter in H as (? & ->); [|cbn; tauto]
  end.
(** A newtype's comparisons and hash. *)
Ltac by_newtype :=
  lazymatch goal with
  | |- says [?x; _] [vtag ?t _; _] _ => change x with (type_of t);
      first [eapply (says_eq t)|eapply (says_partial_cmp t)|eapply (says_cmp t)|eapply (says_hash t)]
  end.
Ltac say :=
  eexists; first
  [ by_newtype
  | lazymatch goal with |- says ["GrandfatheredLangTag"; "new"] [?w ?s] _ => apply (says_Grandfathered_new s w); auto end
  | econstructor; solve [auto] | econstructor ].

Lemma typed_says_api : Forall (fun p => forall args, Forall2 (has_type crate) (snd p) args ->
  (forall b, In (vsingleton b) args -> is_ascii_alphanumeric b = true) -> exists r, says (fst p) args r) api.
Proof.
  unfold api.
  repeat (apply Forall_cons; [cbn [fst snd]; intros args T S;
    first [ apply args0 in T as -> | apply args1 in T as (? & -> & T) | let T' := fresh in apply args2 in T as (? & ? & -> & T & T'); type_step T' ];
    try type_step T; say|]); try apply Forall_nil.
  - apply S. now left.
  - apply S. now left.
Qed.

Lemma typed_says f tys args : offered crate f tys -> Forall2 (has_type crate) tys args ->
  (forall b, In (vsingleton b) args -> is_ascii_alphanumeric b = true) -> exists r, says f args r.
Proof.
  intros O T S. apply offered_api in O as [O|(x & X & -> & ->)].
  - exact (proj1 (Forall_forall _ _) typed_says_api (f, tys) O args T S).
  - assert (Y : exists ty, x = type_of ty).
    { cbn in X. repeat (destruct X as [<-|X]; [solve [eexists; (instantiate (1 := LangTagT) + instantiate (1 := NormalLangTagT)
        + instantiate (1 := PrivateUseT) + instantiate (1 := PrivateUseSubtagT) + instantiate (1 := LanguageT)
        + instantiate (1 := PrimaryLanguageT) + instantiate (1 := LanguageExtensionT) + instantiate (1 := ExtendedLangTagT)
        + instantiate (1 := ScriptT) + instantiate (1 := RegionT) + instantiate (1 := VariantT) + instantiate (1 := VariantsT)
        + instantiate (1 := ExtensionT) + instantiate (1 := ExtensionSubtagT) + instantiate (1 := ExtensionsT)); reflexivity]|]).
      destruct X. }
    destruct Y as (ty & ->). apply args1 in T as (v & -> & T). apply type_T in T as (s & [-> | ->]).
    + eexists. apply says_new_str.
    + eexists. apply says_new_bytes.
Qed.

(** * 6. Names that are not offered *)

Definition hidden_path (f : list string) : bool :=
  match f with
  | [_] => true
  | x :: m :: _ => String.prefix "grammar::" x || existsb (fun h => String.eqb (fst h) x && String.eqb (snd h) m) hidden_methods
  | [] => true
  end.
Lemma offered_not_hidden f tys : offered crate f tys -> hidden_path f = false.
Proof.
  intros O. apply offered_api in O as [O|(x & X & -> & _)].
  - assert (A : forallb (fun p => negb (hidden_path (fst p))) api = true) by (vm_compute; reflexivity).
    apply negb_true_iff. exact (proj1 (forallb_forall _ _) A (f, tys) O).
  - assert (A : forallb (fun x => negb (hidden_path [x; "new"])) new_types = true) by (vm_compute; reflexivity).
    apply negb_true_iff. exact (proj1 (forallb_forall _ _) A x X).
Qed.
