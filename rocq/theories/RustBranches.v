(** The branches of the source text, and programs with one branch replaced by a panic. *)
From Verif Require Import Base GrammarRs Validate Utils Grandfathered Normal LangTag Newtypes Derived Spec Observe Accept Scan GrammarArms.
From Verif Require Import RustText RustSyntax RustEval RustProgram RustRefine RustGrammar RustValidate RustNormal RustAccess
  RustTags RustLib RustSays RustClient RustClientSound RustFuel PropsClient.
Import Base.
Open Scope string_scope.
Open Scope nat_scope.
Open Scope list_scope.

(** [None.unwrap()] *)
Definition cut : expr := EMethod (EPath ["None"]) "unwrap" [].

Definition option_cuts {A} (f : A -> list A) (x : option A) : list (option A) :=
  match x with Some a => map Some (f a) | None => [] end.

(** The expression with one of its branches cut: the two sides of an [if] (also the side that is not written), the arms of a
    [match], the bodies of loops and closures, the right side of [&&] and [||]. *)
Fixpoint cuts (x : expr) : list expr :=
  let args := fix args (l : list expr) : list (list expr) :=
    match l with [] => [] | y :: l' => map (fun y' => y' :: l') (cuts y) ++ map (cons y) (args l') end in
  let arms := fix arms (l : list (pat * expr)) : list (list (pat * expr)) :=
    match l with
    | [] => []
    | (p, y) :: l' => map (fun y' => (p, y') :: l') (cut :: cuts y) ++ map (cons (p, y)) (arms l')
    end in
  let fields := fix fields (l : list (string * expr)) : list (list (string * expr)) :=
    match l with [] => [] | (f, y) :: l' => map (fun y' => (f, y') :: l') (cuts y) ++ map (cons (f, y)) (fields l') end in
  let stmts := fix stmts (l : list stmt) : list (list stmt) :=
    match l with
    | [] => []
    | s :: l' => map (fun s' => s' :: l') (stmt_cuts s) ++ map (cons s) (stmts l')
    end in
  match x with
  | EInt _ _ | EByte _ | EChar _ | EBool _ | EStr _ | EBytes _ | EPath _ => []
  | EField e f => map (fun e => EField e f) (cuts e)
  | EIndex e i => map (fun e => EIndex e i) (cuts e) ++ map (EIndex e) (cuts i)
  | ERange a b => map (fun a => ERange a b) (option_cuts cuts a) ++ map (ERange a) (option_cuts cuts b)
  | ECall f l => map (fun f => ECall f l) (cuts f) ++ map (ECall f) (args l)
  | EMethod e m l => map (fun e => EMethod e m l) (cuts e) ++ map (EMethod e m) (args l)
  | EUn o e => map (EUn o) (cuts e)
  | EBin o a b =>
    map (fun a => EBin o a b) (cuts a) ++
    match o with BAnd | BOr => [EBin o a cut] | _ => [] end ++
    map (EBin o a) (cuts b)
  | ECast e t => map (fun e => ECast e t) (cuts e)
  | EAssign o l r => map (fun l => EAssign o l r) (cuts l) ++ map (EAssign o l) (cuts r)
  | EIf c t e =>
    map (fun c => EIf c t e) (cuts c) ++
    map (fun t => EIf c t e) (cut :: cuts t) ++
    map (fun e => EIf c t (Some e)) (cut :: match e with Some e => cuts e | None => [] end)
  | EMatch e l => map (fun e => EMatch e l) (cuts e) ++ map (EMatch e) (arms l)
  | EMatches e p => map (fun e => EMatches e p) (cuts e)
  | EWhile c b => map (fun c => EWhile c b) (cuts c) ++ map (EWhile c) (cut :: cuts b)
  | ELoop b => map ELoop (cut :: cuts b)
  | EFor p e b => map (fun e => EFor p e b) (cuts e) ++ map (EFor p e) (cut :: cuts b)
  | EBreak e => map EBreak (option_cuts cuts e)
  | EReturn e => map EReturn (option_cuts cuts e)
  | EBlock l t => map (fun l => EBlock l t) (stmts l) ++ map (EBlock l) (option_cuts cuts t)
  | EClosure ps b => map (EClosure ps) (cut :: cuts b)
  | EStruct p l => map (EStruct p) (fields l)
  | ETuple l => map ETuple (args l)
  | EArray l => map EArray (args l)
  end
with stmt_cuts (s : stmt) : list stmt :=
  match s with
  | SLet p e => map (SLet p) (cuts e)
  | SExpr e => map SExpr (cuts e)
  end.

(** The function with its body, or one branch in it, cut. *)
Definition fn_cuts (f : fn) : list fn :=
  map (Fn (fn_name f) (fn_self f) (fn_params f) (fn_ret f)) (cut :: cuts (fn_body f)).
Fixpoint entry_cuts (skip : entry -> bool) (l : list entry) : list (entry * nat * list entry) :=
  match l with
  | [] => []
  | e :: l' =>
    (if skip e then []
     else map (fun x => (e, fst x, Entry (en_type e) (en_trait e) (snd x) :: l')) (combine (seq 0 (length (fn_cuts (en_fn e)))) (fn_cuts (en_fn e)))) ++
    map (fun x => (fst x, e :: snd x)) (entry_cuts skip l')
  end.
Definition in_grammar (e : entry) : bool := String.prefix "grammar::" (en_type e).

(** * Values to call with *)

Section Types.
(** The fields of the structs, and the constructors of the enums. *)
Variable sh : list (string * list (string * ty)).
Variable en : list (string * list (string * nat)).
Definition pathb (p q : list string) : bool := if list_eq_dec string_dec p q then true else false.
Definition leafb (p : list string) (v : value) : bool :=
  match v with
  | VByte _ => pathb p ["u8"]
  | VNat _ => pathb p ["usize"]
  | VChar _ => pathb p ["char"]
  | VStr _ => pathb p ["str"] || pathb p ["T"]
  | VBytes _ => pathb p ["T"]
  | VSink _ => pathb p ["H"] || pathb p ["fmt"; "Formatter"]
  | _ => false
  end.
Definition constantb (x c : string) : bool :=
  match assoc x en with Some cs => existsb (fun k => String.eqb c (fst k) && (snd k =? 0)) cs | None => false end.
Definition fieldsb (typed : ty -> value -> bool) : list (string * ty) -> list (string * value) -> bool :=
  fix all fs vs :=
    match fs, vs with
    | [], [] => true
    | (f, t) :: fs, (g, v) :: vs => String.eqb f g && typed t v && all fs vs
    | _, _ => false
    end.
(** Whether the value is of the type ([has_type]). *)
Fixpoint typeb (n : nat) (t : ty) (v : value) {struct n} : bool :=
  match n with
  | O => false
  | S n =>
    match t with
    | TyRef _ t => typeb n t v
    | TySlice (TyPath p []) => pathb p ["u8"] && match v with VBytes _ => true | _ => false end
    | TyPath p [] =>
      leafb p v ||
      match v with
      | VStruct x vs => pathb p [x] && match assoc x sh with Some fs => fieldsb (typeb n) fs vs | None => false end
      | VEnum x c [] => pathb p [x] && constantb x c
      | VEnum x c [w] =>
        pathb p ["TypedLangTag"] && String.eqb x "TypedLangTag" &&
        ((String.eqb c "Normal" && typeb n (TyPath ["NormalLangTag"] []) w) ||
         (String.eqb c "PrivateUse" && typeb n (TyPath ["PrivateUse"] []) w) ||
         (String.eqb c "Grandfathered" && typeb n (TyPath ["GrandfatheredLangTag"] []) w))
      | _ => false
      end
    | _ => false
    end
  end.

Lemma pathb_eq p q : pathb p q = true -> p = q.
Proof. unfold pathb. now destruct (list_eq_dec string_dec p q). Qed.
Lemma assoc_In {A} x (l : list (string * A)) a : assoc x l = Some a -> In (x, a) l.
Proof.
  induction l as [|[y b] l IH]; intros E; [discriminate E|]. cbn [assoc] in E.
  destruct (String.eqb_spec x y) as [->|_]; [injection E as ->; now left|right; now apply IH].
Qed.
Lemma constantb_ok x c : constantb x c = true -> exists cs, In (x, cs) en /\ In (c, 0) cs.
Proof.
  unfold constantb. destruct (assoc x en) as [cs|] eqn:A; [|discriminate]. intros E. exists cs.
  apply assoc_In in A. apply existsb_exists in E as ([c' k] & I & E). apply andb_prop in E as [E1 E2]. cbn [fst snd] in *.
  apply String.eqb_eq in E1. apply Nat.eqb_eq in E2. now subst.
Qed.
Variable P : program.
Hypothesis SH : forall x fs, In (x, fs) sh -> exists attrs, In (x, attrs, fs) (structs P).
Hypothesis EN : forall x cs, In (x, cs) en -> In (x, cs) (enums P).
Lemma typeb_has_type n : forall t v, typeb n t v = true -> has_type P t v.
Proof.
  induction n as [|n IH]; intros t v H; [discriminate H|]. cbn [typeb] in H. destruct t as [p l|m t|t|ts|b l]; try discriminate H.
  - destruct l; [|discriminate H]. apply orb_prop in H as [H|H].
    + destruct v; try discriminate H; cbn [leafb] in H; try (apply orb_prop in H as [H|H]); apply pathb_eq in H as ->; constructor.
    + destruct v as [ | | | | | | | | | |x vs|x c [|w [|? ?]]| | | | | ]; try discriminate H.
      * apply andb_prop in H as [Q H]. apply pathb_eq in Q as ->. destruct (assoc x sh) as [fs|] eqn:A; [|discriminate H].
        apply assoc_In, SH in A as (attrs & I).
        assert (F : map fst vs = map fst fs /\ Forall2 (has_type P) (map snd fs) (map snd vs)).
        { clear I. revert vs H. induction fs as [|[f t'] fs IHf]; intros [|[g v'] vs] E; try discriminate E; [split; constructor|].
          cbn [fieldsb] in E. apply andb_prop in E as [E1 E3]. apply andb_prop in E1 as [E1 E2]. apply String.eqb_eq in E1. subst g.
          destruct (IHf vs E3) as [F1 F2]. split; [cbn; now rewrite F1|]. constructor; [now apply IH|exact F2]. }
        destruct F as [F1 F2]. now apply (ht_struct P x attrs fs vs).
      * apply andb_prop in H as [Q H]. apply pathb_eq in Q as ->. apply constantb_ok in H as (cs & I & J). apply (ht_enum P x cs c); auto.
      * apply andb_prop in H as [Q H]. apply andb_prop in Q as [Q X]. apply pathb_eq in Q as ->. apply String.eqb_eq in X. subst x.
        apply orb_prop in H as [H|H]; [apply orb_prop in H as [H|H]|]; apply andb_prop in H as [C H]; apply String.eqb_eq in C; subst c;
          apply IH in H; constructor; exact H.
  - apply ht_ref, IH, H.
  - destruct t as [p l| | | |]; try discriminate H. destruct l; [|discriminate H]. apply andb_prop in H as [Q H]. apply pathb_eq in Q as ->.
    destruct v; try discriminate H. constructor.
Qed.
End Types.
Notation typeb_crate := (typeb shapes (enums crate) 9).
Lemma typeb_crate_ok t v : typeb_crate t v = true -> has_type crate t v.
Proof.
  apply typeb_has_type; [|auto]. intros x fs A. rewrite <- shapes_eq in A. apply in_map_iff in A as ([[z attrs] gs] & Z & I).
  cbn [fst snd] in Z. injection Z as -> ->. now exists attrs.
Qed.

(** How a client gets the values: a byte, bytes, ASCII text, a character, a sink or an enum; a tag; what a call gives, the value
    or a new value of a [&mut] argument, with some constructors around it removed. *)
Inductive step : Type :=
| Just (v : value)
| New (ty : newtype) (s : bytes)
| Typed (c : string) (i : nat)
| Call (f : list string) (args : list nat) (out parts : nat).

Definition just_ok (v : value) : bool :=
  match v with
  | VStr s => ascii s
  | VBytes _ | VByte _ | VChar _ | VSink _ => true
  | VEnum x c [] => constantb (enums crate) x c
  | _ => false
  end.
Definition sig (f : list string) : option (list ty) :=
  match find (fun p => if list_eq_dec string_dec f (fst p) then true else false) api with Some p => Some (snd p) | None => None end.
Fixpoint all2 {A B} (f : A -> B -> bool) (l : list A) (m : list B) : bool :=
  match l, m with [], [] => true | a :: l, b :: m => f a b && all2 f l m | _, _ => false end.
Definition typesb : list ty -> list value -> bool := all2 typeb_crate.
Fixpoint inside (k : nat) (v : value) : option value :=
  match k, v with
  | O, v => Some v
  | S k, VEnum _ _ [x] => inside k x
  | _, _ => None
  end.
Fixpoint picked {A} (l : list A) (is : list nat) : option (list A) :=
  match is with
  | [] => Some []
  | i :: is => match nth_error l i, picked l is with Some x, Some xs => Some (x :: xs) | _, _ => None end
  end.
Definition stepped (l : list value) (x : step) : option value :=
  match x with
  | Just v => if just_ok v then Some v else None
  | New ty s => match new_of ty s with Ret (Ok _) => Some (vtag ty s) | _ => None end
  | Typed c i =>
    match nth_error l i with
    | Some v => let w := VEnum "TypedLangTag" c [v] in if typeb_crate (TyPath ["TypedLangTag"] []) w then Some w else None
    | None => None
    end
  | Call f is k parts =>
    match sig f, picked l is with
    | Some tys, Some args =>
      if typesb tys args && (rooms args <=? 1000) then
        match call 1000 crate 300 (VPath f) args with
        | Ret (v, outs) => match nth_error (v :: outs) k with Some w => inside parts w | None => None end
        | _ => None
        end
      else None
    | _, _ => None
    end
  end.
Fixpoint stepped_all (l : list value) (xs : list step) : option (list value) :=
  match xs with
  | [] => Some l
  | x :: xs => match stepped l x with Some v => stepped_all (l ++ [v]) xs | None => None end
  end.

Lemma all2_Forall2 {A B} (f : A -> B -> bool) (R : A -> B -> Prop) : (forall a b, f a b = true -> R a b) ->
  forall l m, all2 f l m = true -> Forall2 R l m.
Proof.
  intros F. induction l as [|a l IH]; intros [|b m] H; try discriminate H; constructor; cbn [all2] in H; apply andb_prop in H as [H1 H2]; auto.
Qed.
Lemma typesb_have_types ts vs : typesb ts vs = true -> Forall2 (has_type crate) ts vs.
Proof. exact (all2_Forall2 typeb_crate (has_type crate) typeb_crate_ok ts vs). Qed.
Lemma sig_offered f tys : sig f = Some tys -> offered crate f tys.
Proof.
  unfold sig. destruct (find _ api) as [[g t]|] eqn:E; [|discriminate]. intros X. injection X as <-. apply find_some in E as [I E].
  cbn [fst snd] in *. destruct (list_eq_dec string_dec f g) as [<-|]; [|discriminate E]. now apply offered_crate.
Qed.
Lemma picked_In {A} (l : list A) is : forall xs, picked l is = Some xs -> forall x, In x xs -> In x l.
Proof.
  induction is as [|i is IH]; intros xs E x I; cbn [picked] in E; [injection E as <-; destruct I|].
  destruct (nth_error l i) as [y|] eqn:N; [|discriminate E]. destruct (picked l is) as [ys|]; [|discriminate E]. injection E as <-.
  destruct I as [<-|I]; [now apply nth_error_In in N|now apply (IH ys)].
Qed.
(** A call that ends in a value, run once, is what the call gives. *)
Lemma run_runs f tys args v : offered crate f tys -> Forall2 (has_type crate) tys args -> (forall a, In a args -> reached crate runs a) ->
  rooms args <= 1000 -> call 1000 crate 300 (VPath f) args = Ret v -> runs f args (Ret v).
Proof.
  intros O T R L E.
  assert (X : forall r, runs f args r -> r = Ret v).
  { intros r H. destruct (runs_inv _ _ _ H 1000 ltac:(lia) L) as (N & X). rewrite <- (X (N + 300) ltac:(lia)).
    destruct (upto_call crate 1000 1000 300 (N + 300) (VPath f) args ltac:(lia) ltac:(lia)) as [Y|Y]; [rewrite E in Y; discriminate Y|].
    now rewrite <- Y. }
  destruct (C73_calls f tys args O T R) as [[_ H]|[_ (w & outs & H)]]; rewrite <- (X _ H); exact H.
Qed.
Lemma inside_reached k : forall v w, reached crate runs v -> inside k v = Some w -> reached crate runs w.
Proof.
  induction k as [|k IH]; intros v w R E; [injection E as <-; exact R|].
  cbn [inside] in E. destruct v as [ | | | | | | | | | | |t c [|x [|? ?]]| | | | | ]; try discriminate E.
  apply (IH x); [|exact E]. apply (reached_part _ _ (VEnum t c [x])); [exact R|apply part_enum; now left].
Qed.
Lemma stepped_reached l x v : Forall (reached crate runs) l -> stepped l x = Some v -> reached crate runs v.
Proof.
  intros F E. destruct x as [w|ty s|c i|f is k parts]; cbn [stepped] in E.
  - destruct (just_ok w) eqn:J; [|discriminate E]. injection E as <-. destruct w as [ | | | | | | | | | | |x c [|? ?]| | | | | ]; try discriminate J; try constructor.
    + now apply ascii_utf8.
    + apply constantb_ok in J as (cs & I & J). now apply (reached_enum _ _ x cs).
  - destruct (new_of ty s) as [[y|y]| |] eqn:A; try discriminate E. injection E as <-. apply reached_new. unfold accepted.
    unfold new_of in *. rewrite (new_run _ s (automaton_high ty)) in *. now destruct (accepts _ s).
  - destruct (nth_error l i) as [w|] eqn:N; [|discriminate E]. destruct (typeb_crate _ _) eqn:T; [|discriminate E]. injection E as <-.
    apply reached_typed; [now apply typeb_crate_ok|]. apply nth_error_In in N. exact (proj1 (Forall_forall _ _) F w N).
  - destruct (sig f) as [tys|] eqn:S; [|discriminate E]. destruct (picked l is) as [args|] eqn:P; [|discriminate E].
    destruct (typesb tys args && (rooms args <=? 1000)) eqn:T; [|discriminate E]. apply andb_prop in T as [T L].
    destruct (call 1000 crate 300 (VPath f) args) as [[w outs]| |] eqn:C; try discriminate E.
    destruct (nth_error (w :: outs) k) as [z|] eqn:N; [|discriminate E].
    apply sig_offered in S. apply typesb_have_types in T. apply Nat.leb_le in L.
    assert (R : forall a, In a args -> reached crate runs a).
    { intros a I. apply (proj1 (Forall_forall _ _) F). exact (picked_In l is args P a I). }
    pose proof (run_runs f tys args (w, outs) S T R L C) as H. apply (inside_reached parts z); [|exact E].
    apply nth_error_In in N. destruct N as [<-|N]; [now apply (reached_result _ _ f tys args w outs)|now apply (reached_mut _ _ f tys args w outs)].
Qed.
Lemma stepped_all_reached xs : forall l l', Forall (reached crate runs) l -> stepped_all l xs = Some l' -> Forall (reached crate runs) l'.
Proof.
  induction xs as [|x xs IH]; intros l l' F E; cbn [stepped_all] in E; [injection E as <-; exact F|].
  destruct (stepped l x) as [v|] eqn:S; [|discriminate E]. apply (IH (l ++ [v])); [|exact E].
  apply Forall_app. split; [exact F|]. constructor; [now apply (stepped_reached l x)|constructor].
Qed.

(** * The calls *)

Definition script : list step :=
  [ New LangTagT (bs "fr-Latn-FR-abcde-a-bcd-x-e"); New LangTagT (bs "i-klingon"); New LangTagT (bs "x-ab");
    New NormalLangTagT (bs "fr-Latn-FR-abcde-a-bcd-x-e"); New NormalLangTagT (bs "fr-001-x-a");
    New NormalLangTagT (bs "fr-1abc-x-a"); New NormalLangTagT (bs "fr"); New NormalLangTagT (bs "fr-abcde");
    New PrivateUseT (bs "x-a-bc"); New PrivateUseT (bs "X-a"); New PrivateUseSubtagT (bs "a");
    New LanguageT (bs "fr"); New LanguageT (bs "fr-abc"); New PrimaryLanguageT (bs "fr");
    New PrimaryLanguageT (bs "FR"); New PrimaryLanguageT (bs "de"); New LanguageExtensionT (bs "abc-def");
    New LanguageExtensionT (bs "abc"); New ExtendedLangTagT (bs "abc"); New ScriptT (bs "Latn");
    New RegionT (bs "FR"); New VariantT (bs "abcde"); New VariantsT (bs ""); New VariantsT (bs "abcde-fghij");
    New ExtensionT (bs "a-bcd-ef"); New ExtensionSubtagT (bs "bcd"); New ExtensionsT (bs "");
    New ExtensionsT (bs "a-bcd-ef-b-cd"); Just (VStr (bs "a")); Just (VStr (bs "ab")); Just (VStr (bs " "));
    Just (VStr (bs "i-klingon")); Just (VBytes (bs "en-GB-oed")); Just (VBytes (bs "art-lojban"));
    Just (VByte "a"%byte); Just (VByte "/"%byte); Just (VChar 97); Just (VChar 47); Just (VChar 300);
    Just (VSink []); Just (VEnum "GrandfatheredLangTag" "EnGbOed" []); Just (VEnum "GrandfatheredLangTag" "IAmi" []);
    Just (VEnum "GrandfatheredLangTag" "IBnn" []); Just (VEnum "GrandfatheredLangTag" "IDefault" []);
    Just (VEnum "GrandfatheredLangTag" "IEnochian" []); Just (VEnum "GrandfatheredLangTag" "IHak" []);
    Just (VEnum "GrandfatheredLangTag" "IKlingon" []); Just (VEnum "GrandfatheredLangTag" "ILux" []);
    Just (VEnum "GrandfatheredLangTag" "IMingo" []); Just (VEnum "GrandfatheredLangTag" "INavajo" []);
    Just (VEnum "GrandfatheredLangTag" "IPwn" []); Just (VEnum "GrandfatheredLangTag" "ITao" []);
    Just (VEnum "GrandfatheredLangTag" "ITay" []); Just (VEnum "GrandfatheredLangTag" "ITsu" []);
    Just (VEnum "GrandfatheredLangTag" "SgnBeFr" []); Just (VEnum "GrandfatheredLangTag" "SgnBeNl" []);
    Just (VEnum "GrandfatheredLangTag" "SgnChDe" []); Just (VEnum "GrandfatheredLangTag" "ArtLojban" []);
    Just (VEnum "GrandfatheredLangTag" "CelGaulish" []); Just (VEnum "GrandfatheredLangTag" "NoBok" []);
    Just (VEnum "GrandfatheredLangTag" "NoNyn" []); Just (VEnum "GrandfatheredLangTag" "ZhGuoyu" []);
    Just (VEnum "GrandfatheredLangTag" "ZhHakka" []); Just (VEnum "GrandfatheredLangTag" "ZhMin" []);
    Just (VEnum "GrandfatheredLangTag" "ZhMinNan" []); Just (VEnum "GrandfatheredLangTag" "ZhXiang" []);
    Just (VEnum "Kind" "Normal" []); Typed "Normal" 6; Typed "PrivateUse" 9; Typed "Grandfathered" 45;
    Just (VByte "a"%byte); Call ["Singleton"; "new"] [70] 0 1; Just (VByte "b"%byte);
    Call ["Singleton"; "new"] [72] 0 1; Call ["Variants"; "iter"] [23] 0 0; Call ["VariantsIter"; "next"] [74] 1 0;
    Call ["VariantsIter"; "next"] [75] 1 0; Call ["VariantsIter"; "next_back"] [74] 1 0;
    Call ["Extension"; "iter"] [24] 0 0; Call ["ExtensionIter"; "next"] [78] 1 0;
    Call ["ExtensionIter"; "next"] [79] 1 0; Call ["Extensions"; "iter"] [27] 0 0;
    Call ["ExtensionsIter"; "next"] [81] 1 0; Call ["ExtensionsIter"; "next"] [82] 1 0;
    Call ["PrivateUse"; "iter"] [8] 0 0; Call ["PrivateUseIter"; "next"] [84] 1 0;
    Call ["PrivateUseIter"; "next"] [85] 1 0; Call ["LanguageExtension"; "iter"] [16] 0 0;
    Call ["LanguageExtensionIter"; "next"] [87] 1 0; Call ["LanguageExtensionIter"; "next"] [88] 1 0 ].

(** For each cut, a function, and its arguments among the values of the script. *)
Definition witnesses : list (option (list string * list nat)) :=
  [ Some (["PrimaryLanguage"; "hash"], [13; 39]); Some (["PrimaryLanguage"; "cmp"], [13; 13]);
    Some (["PrimaryLanguage"; "partial_cmp"], [13; 13]); Some (["PrimaryLanguage"; "eq"], [13; 13]);
    Some (["ExtendedLangTag"; "hash"], [18; 39]); Some (["ExtendedLangTag"; "cmp"], [18; 18]);
    Some (["ExtendedLangTag"; "partial_cmp"], [18; 18]); Some (["ExtendedLangTag"; "eq"], [18; 18]);
    Some (["LanguageExtensionIter"; "next"], [87]); Some (["LanguageExtensionIter"; "next"], [87]);
    Some (["LanguageExtensionIter"; "next"], [89]); Some (["LanguageExtensionIter"; "empty"], []);
    Some (["LanguageExtension"; "iter"], [16]); Some (["LanguageExtension"; "hash"], [16; 39]);
    Some (["LanguageExtension"; "cmp"], [16; 16]); Some (["LanguageExtension"; "partial_cmp"], [16; 16]);
    Some (["LanguageExtension"; "eq"], [16; 16]); Some (["LanguageExtension"; "iter"], [16]);
    Some (["Language"; "hash"], [11; 39]); Some (["Language"; "cmp"], [11; 11]);
    Some (["Language"; "partial_cmp"], [11; 11]); Some (["Language"; "eq"], [11; 11]);
    Some (["Language"; "extension_subtags"], [11]); Some (["Language"; "extension"], [11]);
    Some (["Language"; "extension"], [12]); Some (["Language"; "primary"], [11]);
    Some (["Language"; "primary"], [12]); Some (["Language"; "primary"], [11]); Some (["Region"; "hash"], [20; 39]);
    Some (["Region"; "cmp"], [20; 20]); Some (["Region"; "partial_cmp"], [20; 20]);
    Some (["Region"; "eq"], [20; 20]); Some (["Script"; "hash"], [19; 39]); Some (["Script"; "cmp"], [19; 19]);
    Some (["Script"; "partial_cmp"], [19; 19]); Some (["Script"; "eq"], [19; 19]);
    Some (["PrivateUseSubtag"; "hash"], [10; 39]); Some (["PrivateUseSubtag"; "cmp"], [10; 10]);
    Some (["PrivateUseSubtag"; "partial_cmp"], [10; 10]); Some (["PrivateUseSubtag"; "eq"], [10; 10]);
    Some (["PrivateUseIter"; "next"], [84]); Some (["PrivateUseIter"; "next"], [84]);
    Some (["PrivateUseIter"; "next"], [86]); Some (["PrivateUseIter"; "empty"], []);
    Some (["PrivateUse"; "iter"], [8]); Some (["PrivateUse"; "hash"], [8; 39]); Some (["PrivateUse"; "cmp"], [8; 8]);
    Some (["PrivateUse"; "partial_cmp"], [8; 8]); Some (["PrivateUse"; "eq"], [8; 8]);
    Some (["PrivateUse"; "iter"], [8]); Some (["VariantsIter"; "next_back"], [74]);
    Some (["VariantsIter"; "next_back"], [74]); Some (["VariantsIter"; "next_back"], [74]);
    Some (["VariantsIter"; "next_back"], [77]); Some (["VariantsIter"; "next_back"], [76]);
    Some (["VariantsIter"; "next"], [74]); Some (["VariantsIter"; "next"], [74]);
    Some (["VariantsIter"; "next"], [76]); Some (["VariantsIter"; "empty"], []); Some (["Variants"; "last"], [22]);
    Some (["Variants"; "hash"], [22; 39]); Some (["Variants"; "cmp"], [22; 22]);
    Some (["Variants"; "partial_cmp"], [22; 22]); Some (["Variants"; "eq"], [22; 22]);
    Some (["Variants"; "last"], [22]); Some (["Variants"; "first"], [22]); Some (["Variants"; "iter"], [22]);
    Some (["Variant"; "hash"], [21; 39]); Some (["Variant"; "cmp"], [21; 21]);
    Some (["Variant"; "partial_cmp"], [21; 21]); Some (["Variant"; "eq"], [21; 21]);
    Some (["ExtensionSubtag"; "hash"], [25; 39]); Some (["ExtensionSubtag"; "cmp"], [25; 25]);
    Some (["ExtensionSubtag"; "partial_cmp"], [25; 25]); Some (["ExtensionSubtag"; "eq"], [25; 25]);
    Some (["ExtensionsIter"; "next"], [81]); Some (["ExtensionsIter"; "next"], [81]);
    Some (["ExtensionsIter"; "next"], [81]); Some (["ExtensionsIter"; "next"], [83]);
    Some (["Extensions"; "iter"], [26]); Some (["Extensions"; "hash"], [26; 39]);
    Some (["Extensions"; "cmp"], [26; 26]); Some (["Extensions"; "partial_cmp"], [26; 26]);
    Some (["Extensions"; "eq"], [26; 26]); Some (["Extensions"; "iter_extension"], [26; 71]);
    Some (["Extensions"; "iter"], [26]); Some (["Extensions"; "get"], [26; 71]);
    Some (["Extensions"; "get"], [27; 71]); Some (["Extensions"; "get"], [27; 71]);
    Some (["Extensions"; "get"], [27; 71]); Some (["Extensions"; "get"], [27; 71]);
    Some (["Extensions"; "get"], [27; 71]); Some (["Extensions"; "get"], [27; 73]);
    Some (["Extensions"; "get"], [27; 73]); Some (["Extensions"; "get"], [27; 73]);
    Some (["Extensions"; "get"], [27; 73]); Some (["ExtensionIter"; "next"], [78]);
    Some (["ExtensionIter"; "next"], [78]); Some (["ExtensionIter"; "next"], [80]);
    Some (["ExtensionIter"; "empty"], []); Some (["Extensions"; "iter_extension"], [27; 71]);
    Some (["Extension"; "hash"], [24; 39]); Some (["Extension"; "cmp"], [24; 24]);
    Some (["Extension"; "partial_cmp"], [24; 24]); Some (["Extension"; "eq"], [24; 24]);
    Some (["Extension"; "iter"], [24]); Some (["Extension"; "singleton"], [24]);
    Some (["Singleton"; "as"; "Debug"; ""; "fmt"], [71; 39]);
    Some (["Singleton"; "as"; "Display"; ""; "fmt"], [71; 39]);
    Some (["Singleton"; "as"; "PartialEq"; "char"; "eq"], [71; 36]);
    Some (["Singleton"; "as"; "PartialEq"; "u8"; "eq"], [71; 34]);
    Some (["Singleton"; "as"; "TryFrom"; "char"; "try_from"], [36]);
    Some (["Singleton"; "as"; "TryFrom"; "char"; "try_from"], [36]);
    Some (["Singleton"; "as"; "TryFrom"; "char"; "try_from"], [37]);
    Some (["Singleton"; "as"; "TryFrom"; "char"; "try_from"], [38]);
    Some (["Singleton"; "as"; "TryFrom"; "u8"; "try_from"], [34]); Some (["Singleton"; "from_str"], [28]);
    Some (["Singleton"; "from_str"], [29]); Some (["Singleton"; "unwrap"], [71]);
    Some (["Singleton"; "from_string"], [28]); Some (["Singleton"; "from_string"], [28]);
    Some (["Singleton"; "from_string"], [30]); Some (["Singleton"; "from_string"], [29]);
    Some (["Singleton"; "new"], [34]); Some (["Singleton"; "new"], [34]); Some (["Singleton"; "new"], [34]);
    Some (["Singleton"; "new"], [34]); Some (["Singleton"; "new"], [35]); Some (["VariantsIter"; "next_back"], [74]);
    Some (["VariantsIter"; "next_back"], [74]); Some (["VariantsIter"; "next_back"], [74]);
    Some (["VariantsIter"; "next_back"], [74]); Some (["VariantsIter"; "next_back"], [74]);
    Some (["VariantsIter"; "next_back"], [74]); Some (["VariantsIter"; "next_back"], [77]); None;
    Some (["LanguageExtensionIter"; "next"], [87]); Some (["LanguageExtensionIter"; "next"], [87]);
    Some (["LanguageExtensionIter"; "next"], [87]); Some (["LanguageExtensionIter"; "next"], [87]);
    Some (["ExtensionsIter"; "next"], [81]); Some (["ExtensionsIter"; "next"], [81]);
    Some (["ExtensionsIter"; "next"], [81]); Some (["ExtensionsIter"; "next"], [81]);
    Some (["ExtensionsIter"; "next"], [81]); Some (["ExtensionsIter"; "next"], [81]);
    Some (["ExtensionsIter"; "next"], [82]); Some (["NormalLangTag"; "private_use_subtags"], [7]);
    Some (["NormalLangTag"; "hash"], [3; 39]); Some (["NormalLangTag"; "cmp"], [3; 3]);
    Some (["NormalLangTag"; "partial_cmp"], [3; 3]); Some (["NormalLangTag"; "eq"], [3; 3]);
    Some (["NormalLangTag"; "private_use_subtags"], [3]); Some (["NormalLangTag"; "private_use_subtags"], [3]);
    Some (["NormalLangTag"; "private_use_subtags"], [7]); Some (["NormalLangTag"; "private_use"], [3]);
    Some (["NormalLangTag"; "private_use"], [3]); Some (["NormalLangTag"; "private_use_subtags"], [3]);
    Some (["NormalLangTag"; "private_use_subtags"], [3]); Some (["NormalLangTag"; "private_use_subtags"], [7]);
    Some (["NormalLangTag"; "extensions"], [3]); Some (["NormalLangTag"; "extensions"], [3]);
    Some (["NormalLangTag"; "extensions"], [3]); Some (["NormalLangTag"; "extensions"], [3]);
    Some (["NormalLangTag"; "extensions"], [4]); Some (["NormalLangTag"; "extensions"], [3]);
    Some (["NormalLangTag"; "variants"], [3]); Some (["NormalLangTag"; "private_use_subtags"], [3]);
    Some (["NormalLangTag"; "private_use_subtags"], [3]); Some (["NormalLangTag"; "private_use_subtags"], [5]);
    Some (["NormalLangTag"; "private_use_subtags"], [3]); Some (["NormalLangTag"; "private_use_subtags"], [4]);
    Some (["NormalLangTag"; "private_use_subtags"], [3]); Some (["NormalLangTag"; "region"], [3]);
    Some (["NormalLangTag"; "region"], [3]); Some (["NormalLangTag"; "private_use_subtags"], [3]);
    Some (["NormalLangTag"; "private_use_subtags"], [3]); Some (["NormalLangTag"; "private_use_subtags"], [4]);
    Some (["NormalLangTag"; "private_use_subtags"], [3]); Some (["NormalLangTag"; "private_use_subtags"], [3]);
    Some (["NormalLangTag"; "private_use_subtags"], [3]); Some (["NormalLangTag"; "private_use_subtags"], [5]);
    Some (["NormalLangTag"; "script"], [3]); Some (["NormalLangTag"; "script"], [3]);
    Some (["NormalLangTag"; "private_use_subtags"], [3]); Some (["NormalLangTag"; "private_use_subtags"], [3]);
    Some (["NormalLangTag"; "private_use_subtags"], [3]); Some (["NormalLangTag"; "private_use_subtags"], [3]);
    Some (["NormalLangTag"; "private_use_subtags"], [4]); Some (["NormalLangTag"; "language"], [3]);
    Some (["NormalLangTag"; "private_use_subtags"], [3]); Some (["NormalLangTag"; "private_use_subtags"], [3]);
    Some (["NormalLangTag"; "private_use_subtags"], [3]);
    Some (["GrandfatheredLangTag"; "as"; "Display"; ""; "fmt"], [40; 39]);
    Some (["GrandfatheredLangTag"; "try_from"], [32]); Some (["GrandfatheredLangTag"; "try_from"], [32]);
    Some (["GrandfatheredLangTag"; "try_from"], [32]); Some (["GrandfatheredLangTag"; "try_from"], [33]);
    Some (["GrandfatheredLangTag"; "as_str"], [40]); Some (["GrandfatheredLangTag"; "as_bytes"], [40]);
    Some (["GrandfatheredLangTag"; "as_bytes"], [40]); Some (["GrandfatheredLangTag"; "as_bytes"], [41]);
    Some (["GrandfatheredLangTag"; "as_bytes"], [42]); Some (["GrandfatheredLangTag"; "as_bytes"], [43]);
    Some (["GrandfatheredLangTag"; "as_bytes"], [44]); Some (["GrandfatheredLangTag"; "as_bytes"], [45]);
    Some (["GrandfatheredLangTag"; "as_bytes"], [46]); Some (["GrandfatheredLangTag"; "as_bytes"], [47]);
    Some (["GrandfatheredLangTag"; "as_bytes"], [48]); Some (["GrandfatheredLangTag"; "as_bytes"], [49]);
    Some (["GrandfatheredLangTag"; "as_bytes"], [50]); Some (["GrandfatheredLangTag"; "as_bytes"], [51]);
    Some (["GrandfatheredLangTag"; "as_bytes"], [52]); Some (["GrandfatheredLangTag"; "as_bytes"], [53]);
    Some (["GrandfatheredLangTag"; "as_bytes"], [54]); Some (["GrandfatheredLangTag"; "as_bytes"], [55]);
    Some (["GrandfatheredLangTag"; "as_bytes"], [56]); Some (["GrandfatheredLangTag"; "as_bytes"], [57]);
    Some (["GrandfatheredLangTag"; "as_bytes"], [58]); Some (["GrandfatheredLangTag"; "as_bytes"], [59]);
    Some (["GrandfatheredLangTag"; "as_bytes"], [60]); Some (["GrandfatheredLangTag"; "as_bytes"], [61]);
    Some (["GrandfatheredLangTag"; "as_bytes"], [62]); Some (["GrandfatheredLangTag"; "as_bytes"], [63]);
    Some (["GrandfatheredLangTag"; "as_bytes"], [64]); Some (["GrandfatheredLangTag"; "as_bytes"], [65]);
    Some (["GrandfatheredLangTag"; "language"], [40]); Some (["GrandfatheredLangTag"; "language"], [57]);
    Some (["GrandfatheredLangTag"; "language"], [58]); Some (["GrandfatheredLangTag"; "language"], [59]);
    Some (["GrandfatheredLangTag"; "language"], [60]); Some (["GrandfatheredLangTag"; "language"], [61]);
    Some (["GrandfatheredLangTag"; "language"], [62]); Some (["GrandfatheredLangTag"; "language"], [63]);
    Some (["GrandfatheredLangTag"; "language"], [64]); Some (["GrandfatheredLangTag"; "language"], [65]);
    Some (["GrandfatheredLangTag"; "language"], [40]); Some (["GrandfatheredLangTag"; "new"], [28]);
    Some (["GrandfatheredLangTag"; "new"], [31]); Some (["GrandfatheredLangTag"; "new"], [28]);
    Some (["PrimaryLanguage"; "cmp"], [13; 13]); Some (["PrimaryLanguage"; "cmp"], [13; 13]);
    Some (["PrimaryLanguage"; "cmp"], [13; 13]); Some (["PrimaryLanguage"; "cmp"], [13; 13]);
    Some (["LanguageExtension"; "cmp"], [17; 16]); Some (["PrimaryLanguage"; "cmp"], [13; 13]);
    Some (["LanguageExtension"; "cmp"], [16; 17]); Some (["PrimaryLanguage"; "cmp"], [13; 13]);
    Some (["PrimaryLanguage"; "cmp"], [13; 13]); Some (["PrimaryLanguage"; "cmp"], [13; 15]);
    Some (["PrimaryLanguage"; "hash"], [13; 39]); Some (["PrimaryLanguage"; "hash"], [13; 39]);
    Some (["PrimaryLanguage"; "eq"], [13; 13]); Some (["PrimaryLanguage"; "eq"], [13; 13]);
    Some (["PrimaryLanguage"; "eq"], [13; 13]); Some (["PrimaryLanguage"; "eq"], [13; 15]);
    Some (["PrimaryLanguage"; "eq"], [13; 13]); Some (["LanguageExtension"; "eq"], [16; 17]);
    Some (["PrimaryLanguage"; "hash"], [13; 39]); Some (["PrimaryLanguage"; "hash"], [14; 39]);
    Some (["PrimaryLanguage"; "hash"], [13; 39]); Some (["Kind"; "is_grandfathered"], [66]);
    Some (["Kind"; "is_private_use"], [66]); Some (["Kind"; "is_normal"], [66]);
    Some (["TypedLangTag"; "as_grandfathered"], [67]); Some (["TypedLangTag"; "as_grandfathered"], [69]);
    Some (["TypedLangTag"; "as_grandfathered"], [67]); Some (["TypedLangTag"; "as_private_use"], [67]);
    Some (["TypedLangTag"; "as_private_use"], [68]); Some (["TypedLangTag"; "as_private_use"], [67]);
    Some (["TypedLangTag"; "as_normal"], [67]); Some (["TypedLangTag"; "as_normal"], [67]);
    Some (["TypedLangTag"; "as_normal"], [68]); Some (["TypedLangTag"; "is_grandfathered"], [67]);
    Some (["TypedLangTag"; "is_private_use"], [67]); Some (["TypedLangTag"; "is_normal"], [67]);
    Some (["TypedLangTag"; "kind"], [67]); Some (["TypedLangTag"; "kind"], [67]);
    Some (["TypedLangTag"; "kind"], [68]); Some (["TypedLangTag"; "kind"], [69]);
    Some (["TypedLangTag"; "language"], [67]); Some (["TypedLangTag"; "language"], [67]);
    Some (["TypedLangTag"; "language"], [68]); Some (["TypedLangTag"; "language"], [69]);
    Some (["LangTag"; "hash"], [0; 39]); Some (["LangTag"; "cmp"], [0; 0]);
    Some (["LangTag"; "partial_cmp"], [0; 0]); Some (["LangTag"; "eq"], [0; 0]); Some (["LangTag"; "as_typed"], [0]);
    Some (["LangTag"; "as_typed"], [0]); Some (["LangTag"; "as_typed"], [1]); Some (["LangTag"; "as_typed"], [2]);
    Some (["LangTag"; "as_typed"], [1]); Some (["LangTag"; "kind"], [0]);
    Some (["LangTag"; "as_grandfathered"], [0]); Some (["LangTag"; "as_private_use"], [0]);
    Some (["LangTag"; "as_normal"], [0]); Some (["LangTag"; "is_grandfathered"], [0]);
    Some (["LangTag"; "is_private_use"], [0]); Some (["LangTag"; "is_normal"], [0]);
    Some (["LangTag"; "private_use_subtags"], [0]); Some (["LangTag"; "private_use"], [0]);
    Some (["LangTag"; "extensions"], [0]); Some (["LangTag"; "variants"], [0]); Some (["LangTag"; "region"], [0]);
    Some (["LangTag"; "script"], [0]); Some (["LangTag"; "language"], [0]); Some (["LangTag"; "language"], [0]);
    Some (["LangTag"; "language"], [1]); Some (["LangTag"; "language"], [1]); Some (["LangTag"; "language"], [2]) ].

Definition pool : list value := Eval vm_compute in match stepped_all [] script with Some l => l | None => [] end.
Lemma pool_eq : stepped_all [] script = Some pool.
Proof. vm_cast_no_check (eq_refl (Some pool)). Qed.
Lemma pool_reached : Forall (reached crate runs) pool.
Proof. exact (stepped_all_reached script [] pool (Forall_nil _) pool_eq). Qed.

Definition with_fns (l : list entry) : program := Program l (consts crate) (structs crate) (enums crate) (aliases crate).
Definition witnessed (l : list entry) (w : list string * list nat) : bool :=
  match sig (fst w), picked pool (snd w) with
  | Some tys, Some args =>
    typesb tys args && (rooms args <=? 1000) &&
    match call 1000 crate 300 (VPath (fst w)) args, call 1000 (with_fns l) 300 (VPath (fst w)) args with
    | Ret _, Panic => true
    | _, _ => false
    end
  | _, _ => false
  end.
Definition unused (e : entry) (i : nat) : bool :=
  String.eqb (en_type e) "" && String.eqb (fn_name (en_fn e)) "find_segment_start" && (i =? 7).
Fixpoint all_witnessed (c : list (entry * nat * list entry)) (w : list (option (list string * list nat))) : bool :=
  match c, w with
  | [], [] => true
  | (e, i, l) :: c, Some w1 :: w => witnessed l w1 && all_witnessed c w
  | (e, i, l) :: c, None :: w => unused e i && all_witnessed c w
  | _, _ => false
  end.
Lemma cuts_witnessed : all_witnessed (entry_cuts in_grammar (fns crate)) witnesses = true.
Proof. vm_cast_no_check (eq_refl true). Qed.
