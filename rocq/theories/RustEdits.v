(** The programs that differ from the source by one operator, literal, condition or statement, and calls that tell them
    from it. *)
From Verif Require Import Base GrammarRs Validate Utils Grandfathered Normal LangTag Newtypes Derived Spec Observe Case Accept Scan GrammarArms.
From Verif Require Import RustText RustSyntax RustEval RustProgram RustRefine RustGrammar RustValidate RustNormal RustAccess
  RustTags RustLib RustSays RustClient RustClientSound RustFuel PropsClient RustBranches.
Import Base.
Open Scope string_scope.
Open Scope nat_scope.
Open Scope list_scope.

(** * 1. Edits *)

(** [&&] and [||], [==] and [!=], [<] and [<=], [>] and [>=], [+] and [-] in place of each other; a number one higher; the next
    byte in place of a byte, also in a text; [true] and [false]; an [Ordering]; a bound of a pattern one higher or lower; [!]
    removed; the condition of an [if] negated; a statement that is not a [let] removed. *)
Definition other_binop (o : binop) : binop :=
  match o with
  | BOr => BAnd | BAnd => BOr | BEq => BNe | BNe => BEq | BLt => BLe | BLe => BLt | BGt => BGe | BGe => BGt | BAdd => BSub | BSub => BAdd
  end.
Definition next_byte (b : byte) : byte := match Byte.of_N (N.succ (Byte.to_N b)) with Some c => c | None => x00 end.
Fixpoint other_text (s : bytes) : list bytes :=
  match s with [] => [] | b :: s' => (next_byte b :: s') :: map (cons b) (other_text s') end.
Fixpoint pat_edits (p : pat) : list pat :=
  let all := fix all (l : list pat) : list (list pat) :=
    match l with [] => [] | q :: l' => map (fun q' => q' :: l') (pat_edits q) ++ map (cons q) (all l') end in
  match p with
  | PInt n => [PInt (N.succ n)]
  | PChar lo hi => [PChar (N.succ lo) hi; PChar lo (N.succ hi); PChar (N.pred lo) hi; PChar lo (N.pred hi)]
  | PTuple l => map PTuple (all l)
  | PCtor c l => map (PCtor c) (all l)
  | POr l => map POr (all l)
  | _ => []
  end.
Definition path_edits (p : list string) : list (list string) :=
  match p with
  | ["Ordering"; x] => [["Ordering"; if String.eqb x "Less" then "Greater" else "Less"]]
  | _ => []
  end.
Fixpoint edits (x : expr) : list expr :=
  let args := fix args (l : list expr) : list (list expr) :=
    match l with [] => [] | y :: l' => map (fun y' => y' :: l') (edits y) ++ map (cons y) (args l') end in
  let arms := fix arms (l : list (pat * expr)) : list (list (pat * expr)) :=
    match l with
    | [] => []
    | (p, y) :: l' => map (fun p' => (p', y) :: l') (pat_edits p) ++ map (fun y' => (p, y') :: l') (edits y) ++ map (cons (p, y)) (arms l')
    end in
  let fields := fix fields (l : list (string * expr)) : list (list (string * expr)) :=
    match l with [] => [] | (f, y) :: l' => map (fun y' => (f, y') :: l') (edits y) ++ map (cons (f, y)) (fields l') end in
  let stmts := fix stmts (l : list stmt) : list (list stmt) :=
    match l with
    | [] => []
    | s :: l' => map (fun s' => s' :: l') (stmt_edits s) ++ (match s with SExpr _ => [l'] | _ => [] end) ++ map (cons s) (stmts l')
    end in
  match x with
  | EInt n s => [EInt (N.succ n) s]
  | EByte b => [EByte (next_byte b)]
  | EChar c => [EChar (N.succ c)]
  | EBool b => [EBool (negb b)]
  | EStr s => map EStr (other_text s)
  | EBytes s => map EBytes (other_text s)
  | EPath p => map EPath (path_edits p)
  | EField e f => map (fun e => EField e f) (edits e)
  | EIndex e i => map (fun e => EIndex e i) (edits e) ++ map (EIndex e) (edits i)
  | ERange a b => map (fun a => ERange a b) (option_cuts edits a) ++ map (ERange a) (option_cuts edits b)
  | ECall f l => map (fun f => ECall f l) (edits f) ++ map (ECall f) (args l)
  | EMethod e m l => map (fun e => EMethod e m l) (edits e) ++ map (EMethod e m) (args l)
  | EUn UNot e => e :: map (EUn UNot) (edits e)
  | EUn o e => map (EUn o) (edits e)
  | EBin o a b => EBin (other_binop o) a b :: map (fun a => EBin o a b) (edits a) ++ map (EBin o a) (edits b)
  | ECast e t => map (fun e => ECast e t) (edits e)
  | EAssign o l r => (match o with Some o => [EAssign (Some (other_binop o)) l r] | None => [] end) ++
      map (fun l => EAssign o l r) (edits l) ++ map (EAssign o l) (edits r)
  | EIf c t e =>
    EIf (EUn UNot c) t e ::
    map (fun c => EIf c t e) (edits c) ++ map (fun t => EIf c t e) (edits t) ++ map (EIf c t) (option_cuts edits e)
  | EMatch e l => map (fun e => EMatch e l) (edits e) ++ map (EMatch e) (arms l)
  | EMatches e p => map (fun e => EMatches e p) (edits e) ++ map (EMatches e) (pat_edits p)
  | EWhile c b => map (fun c => EWhile c b) (edits c) ++ map (EWhile c) (edits b)
  | ELoop b => map ELoop (edits b)
  | EFor p e b => map (fun e => EFor p e b) (edits e) ++ map (EFor p e) (edits b)
  | EBreak e => map EBreak (option_cuts edits e)
  | EReturn e => map EReturn (option_cuts edits e)
  | EBlock l t => map (fun l => EBlock l t) (stmts l) ++ map (EBlock l) (option_cuts edits t)
  | EClosure ps b => map (EClosure ps) (edits b)
  | EStruct p l => map (EStruct p) (fields l)
  | ETuple l => map ETuple (args l)
  | EArray l => map EArray (args l)
  end
with stmt_edits (s : stmt) : list stmt :=
  match s with
  | SLet p e => map (SLet p) (edits e)
  | SExpr e => map SExpr (edits e)
  end.
Definition fn_edits (f : fn) : list fn := map (Fn (fn_name f) (fn_self f) (fn_params f) (fn_ret f)) (edits (fn_body f)).
Fixpoint entry_edits (skip : entry -> bool) (l : list entry) : list (entry * nat * list entry) :=
  match l with
  | [] => []
  | e :: l' =>
    (if skip e then []
     else map (fun x => (e, fst x, Entry (en_type e) (en_trait e) (snd x) :: l')) (combine (seq 0 (length (fn_edits (en_fn e)))) (fn_edits (en_fn e)))) ++
    map (fun x => (fst x, e :: snd x)) (entry_edits skip l')
  end.

(** * 2. Results that differ *)

Fixpoint text_differ (a b : bytes) : bool :=
  match a, b with [], [] => false | x :: a, y :: b => negb (beq x y) || text_differ a b | _, _ => true end.
Definition any2 {A B} (f : A -> B -> bool) : list A -> list B -> bool :=
  fix any l m := match l, m with [], [] => false | a :: l, b :: m => f a b || any l m | _, _ => true end.
Fixpoint differ (n : nat) (v w : value) {struct n} : bool :=
  match n with
  | O => false
  | S n =>
    match v, w with
    | VUnit, VUnit => false
    | VBool a, VBool b => xorb a b
    | VNat a, VNat b => negb (a =? b)
    | VByte a, VByte b => negb (beq a b)
    | VU32 a, VU32 b | VChar a, VChar b => negb (N.eqb a b)
    | VStr a, VStr b | VBytes a, VBytes b | VChars a, VChars b | VSink a, VSink b => text_differ a b
    | VList a, VList b | VTuple a, VTuple b => any2 (differ n) a b
    | VStruct x a, VStruct y b => negb (String.eqb x y) || any2 (fun p q => negb (String.eqb (fst p) (fst q)) || differ n (snd p) (snd q)) a b
    | VEnum x c a, VEnum y d b => negb (String.eqb x y) || negb (String.eqb c d) || any2 (differ n) a b
    | VClosure _ _ _, VClosure _ _ _ => false
    | VPath p, VPath q => any2 (fun x y => negb (String.eqb x y)) p q
    | VTy x, VTy y => negb (String.eqb x y)
    | _, _ => true
    end
  end.

Lemma any2_refl {A} (f : A -> A -> bool) : (forall a, f a a = false) -> forall l, any2 f l l = false.
Proof. intros F. induction l as [|a l IH]; [reflexivity|]. cbn [any2]. now rewrite F. Qed.
Lemma text_differ_refl s : text_differ s s = false.
Proof. induction s as [|b s IH]; [reflexivity|]. cbn [text_differ]. now rewrite beq_refl. Qed.
Lemma differ_refl n : forall v, differ n v v = false.
Proof.
  induction n as [|n IH]; [reflexivity|]. intros v.
  destruct v; cbn [differ]; rewrite ?text_differ_refl, ?String.eqb_refl, ?Nat.eqb_refl, ?N.eqb_refl, ?beq_refl, ?xorb_nilpotent;
    cbn [negb orb]; try reflexivity; apply any2_refl; intros; rewrite ?String.eqb_refl; cbn [negb orb]; auto.
Qed.
Definition other_result (r s : outcome (value * list value)) : bool :=
  match r, s with
  | Ret v, Ret w => differ 9 (fst v) (fst w) || any2 (differ 9) (snd v) (snd w)
  | Ret _, Panic | Panic, Ret _ => true
  | _, _ => false
  end.

Lemma other_result_ne r s : other_result r s = true -> r <> s.
Proof.
  intros H <-. destruct r as [[v outs]| |]; try discriminate H. cbn [other_result fst snd] in H.
  rewrite differ_refl, (any2_refl _ (differ_refl 9)) in H. discriminate H.
Qed.

(** * 3. The calls *)

Definition edit_script : list step :=
  [ New LangTagT (bs "fr-Latn-FR-abcde-a-bcd-x-e"); New LangTagT (bs "FR-latn-FR-abcde-a-bcd-x-e");
    New LangTagT (bs "i-klingon"); New LangTagT (bs "zh-min"); New LangTagT (bs "fr-Latn-FR-abcde-a-bcd-x-f");
    New LangTagT (bs "fr-FR"); New LangTagT (bs "fr"); New NormalLangTagT (bs "fr-Latn-FR-abcde-a-bcd-x-e");
    New NormalLangTagT (bs "fr-001-x-a"); New NormalLangTagT (bs "fr-1abc-x-a"); New NormalLangTagT (bs "fr-abcde");
    New PrivateUseT (bs "x-a-bc"); New PrivateUseSubtagT (bs "a"); New PrivateUseSubtagT (bs "b");
    New LanguageT (bs "fr-abc"); New LanguageExtensionT (bs "abc-def"); New VariantsT (bs "");
    New VariantsT (bs "abcde"); New VariantsT (bs "abcde-fghij"); New ExtensionT (bs "a-bcd-ef");
    New ExtensionSubtagT (bs "bcd"); New ExtensionSubtagT (bs "bc"); New ExtensionsT (bs "");
    New ExtensionsT (bs "a-bcd-ef-b-cd"); Just (VStr (bs "a")); Just (VBytes (bs "en-GB-oed"));
    Just (VByte "a"%byte); Just (VByte "/"%byte); Just (VByte "x"%byte); Just (VChar 97);
    Just (VEnum "GrandfatheredLangTag" "EnGbOed" []); Just (VEnum "GrandfatheredLangTag" "IAmi" []);
    Just (VEnum "GrandfatheredLangTag" "IBnn" []); Just (VEnum "GrandfatheredLangTag" "IDefault" []);
    Just (VEnum "GrandfatheredLangTag" "IEnochian" []); Just (VEnum "GrandfatheredLangTag" "IHak" []);
    Just (VEnum "GrandfatheredLangTag" "IKlingon" []); Just (VEnum "GrandfatheredLangTag" "ILux" []);
    Just (VEnum "GrandfatheredLangTag" "IMingo" []); Just (VEnum "GrandfatheredLangTag" "INavajo" []);
    Just (VEnum "GrandfatheredLangTag" "IPwn" []); Just (VEnum "GrandfatheredLangTag" "ITao" []);
    Just (VEnum "GrandfatheredLangTag" "ITay" []); Just (VEnum "GrandfatheredLangTag" "ITsu" []);
    Just (VEnum "GrandfatheredLangTag" "SgnBeFr" []); Just (VEnum "GrandfatheredLangTag" "SgnBeNl" []);
    Just (VEnum "GrandfatheredLangTag" "SgnChDe" []); Just (VEnum "GrandfatheredLangTag" "ArtLojban" []);
    Just (VEnum "GrandfatheredLangTag" "CelGaulish" []); Just (VEnum "GrandfatheredLangTag" "NoBok" []);
    Just (VEnum "GrandfatheredLangTag" "NoNyn" []); Just (VEnum "GrandfatheredLangTag" "ZhGuoyu" []);
    Just (VEnum "GrandfatheredLangTag" "ZhHakka" []); Just (VEnum "GrandfatheredLangTag" "ZhMin" []);
    Just (VEnum "GrandfatheredLangTag" "ZhMinNan" []); Just (VEnum "GrandfatheredLangTag" "ZhXiang" []);
    Just (VByte "a"%byte); Call ["Singleton"; "new"] [56] 0 1; Just (VByte "b"%byte);
    Call ["Singleton"; "new"] [58] 0 1; Call ["Variants"; "iter"] [18] 0 0;
    Call ["VariantsIter"; "next_back"] [60] 1 0; Call ["VariantsIter"; "next_back"] [61] 1 0;
    Call ["Extension"; "iter"] [19] 0 0; Call ["ExtensionIter"; "next"] [63] 1 0;
    Call ["ExtensionIter"; "empty"] [] 0 0; Call ["Extensions"; "iter"] [23] 0 0;
    Call ["ExtensionsIter"; "next"] [66] 1 0; Call ["PrivateUse"; "iter"] [11] 0 0;
    Call ["PrivateUseIter"; "empty"] [] 0 0; Call ["LanguageExtension"; "iter"] [15] 0 0;
    Call ["LanguageExtensionIter"; "empty"] [] 0 0; New ExtensionsT (bs "a-bb-cc");
    Call ["Extensions"; "iter"] [22] 0 0; Just (VByte "X"%byte) ].

Definition edit_witnesses : list (option (list string * list nat)) :=
  [ Some (["LanguageExtensionIter"; "next"], [70]); Some (["LanguageExtensionIter"; "next"], [71]);
    Some (["LanguageExtensionIter"; "next"], [70]); Some (["LanguageExtensionIter"; "next"], [70]);
    Some (["LanguageExtensionIter"; "next"], [70]); Some (["Language"; "extension_subtags"], [14]);
    Some (["Language"; "extension"], [14]); Some (["Language"; "primary"], [14]);
    Some (["PrivateUseIter"; "next"], [68]); Some (["PrivateUseIter"; "next"], [69]);
    Some (["PrivateUseIter"; "next"], [68]); Some (["PrivateUseIter"; "next"], [68]);
    Some (["PrivateUseIter"; "next"], [68]); Some (["LangTag"; "private_use_subtags"], [0]);
    Some (["VariantsIter"; "next_back"], [60]); Some (["VariantsIter"; "next_back"], [62]);
    Some (["VariantsIter"; "next_back"], [60]); Some (["VariantsIter"; "next_back"], [61]); None;
    Some (["VariantsIter"; "next_back"], [60]); Some (["VariantsIter"; "next_back"], [60]);
    Some (["VariantsIter"; "next_back"], [61]); Some (["VariantsIter"; "next_back"], [60]);
    Some (["VariantsIter"; "next"], [60]); Some (["VariantsIter"; "next"], [62]);
    Some (["VariantsIter"; "next"], [60]); Some (["VariantsIter"; "next"], [60]);
    Some (["VariantsIter"; "next"], [60]); Some (["Variants"; "iter"], [16]);
    Some (["ExtensionsIter"; "next"], [66]); Some (["ExtensionsIter"; "next"], [73]);
    Some (["ExtensionsIter"; "next"], [67]); Some (["ExtensionsIter"; "next"], [67]);
    Some (["ExtensionsIter"; "next"], [66]); Some (["ExtensionsIter"; "next"], [66]);
    Some (["ExtensionsIter"; "next"], [66]); Some (["Extensions"; "iter"], [22]);
    Some (["Extensions"; "get"], [23; 57]); Some (["Extensions"; "get"], [23; 57]); None;
    Some (["Extensions"; "get"], [22; 57]); None; Some (["Extensions"; "get"], [23; 57]);
    Some (["Extensions"; "get"], [23; 57]); Some (["Extensions"; "get"], [23; 59]);
    Some (["Extensions"; "get"], [23; 57]); Some (["Extensions"; "get"], [23; 57]);
    Some (["Extensions"; "get"], [23; 59]); Some (["Extensions"; "get"], [23; 57]);
    Some (["Extensions"; "get"], [23; 57]); Some (["Extensions"; "get"], [23; 59]);
    Some (["Extensions"; "get"], [23; 59]); Some (["Extensions"; "get"], [23; 57]);
    Some (["Extensions"; "get"], [23; 57]); Some (["Extensions"; "get"], [23; 57]);
    Some (["Extensions"; "get"], [23; 57]); Some (["Extensions"; "get"], [72; 59]);
    Some (["Extensions"; "get"], [23; 59]); Some (["Extensions"; "get"], [23; 59]);
    Some (["Extensions"; "get"], [23; 59]); Some (["Extensions"; "get"], [23; 59]);
    Some (["Extensions"; "get"], [23; 57]); Some (["Extensions"; "get"], [23; 59]);
    Some (["Extensions"; "get"], [23; 59]); Some (["Extensions"; "get"], [23; 57]);
    Some (["ExtensionIter"; "next"], [63]); Some (["ExtensionIter"; "next"], [65]);
    Some (["ExtensionIter"; "next"], [63]); Some (["ExtensionIter"; "next"], [63]);
    Some (["ExtensionIter"; "next"], [63]); Some (["Extension"; "iter"], [19]);
    Some (["Extension"; "singleton"], [19]); Some (["Singleton"; "as"; "PartialEq"; "char"; "eq"], [57; 29]);
    Some (["Singleton"; "as"; "PartialEq"; "u8"; "eq"], [57; 26]);
    Some (["Singleton"; "as"; "TryFrom"; "char"; "try_from"], [29]); None; Some (["Singleton"; "from_string"], [24]);
    Some (["Singleton"; "from_string"], [24]); Some (["Singleton"; "from_string"], [24]);
    Some (["Singleton"; "new"], [26]); Some (["Singleton"; "new"], [27]); Some (["Singleton"; "new"], [28]);
    Some (["Singleton"; "new"], [26]); Some (["Singleton"; "new"], [28]); Some (["Singleton"; "new"], [26]);
    Some (["Singleton"; "new"], [74]); Some (["Variants"; "last"], [18]); None; None;
    Some (["Variants"; "last"], [17]); None; Some (["Variants"; "last"], [17]); Some (["Variants"; "last"], [17]);
    Some (["Variants"; "last"], [18]); Some (["Variants"; "last"], [18]); Some (["Variants"; "last"], [18]);
    Some (["Variants"; "last"], [18]); Some (["Variants"; "last"], [18]); Some (["Variants"; "last"], [18]);
    Some (["Variants"; "last"], [17]); None; Some (["Variants"; "last"], [17]); Some (["Variants"; "last"], [18]);
    Some (["Variants"; "last"], [17]); Some (["Variants"; "last"], [17]); None;
    Some (["ExtensionIter"; "next"], [64]); Some (["ExtensionIter"; "next"], [63]);
    Some (["ExtensionIter"; "next"], [63]); Some (["ExtensionIter"; "next"], [63]);
    Some (["ExtensionIter"; "next"], [63]); Some (["ExtensionIter"; "next"], [63]);
    Some (["ExtensionIter"; "next"], [63]); Some (["ExtensionIter"; "next"], [63]);
    Some (["ExtensionIter"; "next"], [63]); Some (["LangTag"; "language"], [3]); Some (["LangTag"; "language"], [0]);
    Some (["LangTag"; "language"], [0]); Some (["LangTag"; "language"], [0]); Some (["LangTag"; "language"], [0]);
    Some (["LangTag"; "language"], [0]); Some (["LangTag"; "language"], [3]); Some (["LangTag"; "language"], [0]);
    Some (["LangTag"; "language"], [0]); Some (["Extensions"; "get"], [23; 57]); Some (["LangTag"; "language"], [0]);
    Some (["Extensions"; "get"], [23; 57]); Some (["LangTag"; "variants"], [0]); Some (["LangTag"; "language"], [0]);
    Some (["LangTag"; "language"], [3]); Some (["NormalLangTag"; "private_use"], [7]);
    Some (["NormalLangTag"; "private_use"], [10]); Some (["NormalLangTag"; "private_use"], [7]);
    Some (["NormalLangTag"; "private_use"], [7]); Some (["NormalLangTag"; "extensions"], [7]);
    Some (["NormalLangTag"; "extensions"], [7]); Some (["NormalLangTag"; "extensions"], [7]);
    Some (["NormalLangTag"; "extensions"], [7]); Some (["NormalLangTag"; "extensions"], [7]);
    Some (["NormalLangTag"; "variants"], [7]); Some (["NormalLangTag"; "variants"], [7]);
    Some (["NormalLangTag"; "variants"], [7]); Some (["NormalLangTag"; "variants"], [7]);
    Some (["NormalLangTag"; "region"], [7]); Some (["NormalLangTag"; "region"], [7]);
    Some (["NormalLangTag"; "region"], [9]); Some (["NormalLangTag"; "region"], [7]);
    Some (["NormalLangTag"; "region"], [7]); Some (["NormalLangTag"; "region"], [7]);
    Some (["NormalLangTag"; "script"], [7]); Some (["NormalLangTag"; "script"], [7]);
    Some (["NormalLangTag"; "script"], [8]); Some (["NormalLangTag"; "script"], [7]);
    Some (["NormalLangTag"; "script"], [7]); Some (["NormalLangTag"; "script"], [7]);
    Some (["NormalLangTag"; "language"], [7]); Some (["NormalLangTag"; "language"], [7]);
    Some (["NormalLangTag"; "language"], [7]); Some (["NormalLangTag"; "language"], [7]);
    Some (["GrandfatheredLangTag"; "try_from"], [25]); Some (["GrandfatheredLangTag"; "try_from"], [25]);
    Some (["GrandfatheredLangTag"; "try_from"], [25]); Some (["GrandfatheredLangTag"; "as_bytes"], [30]);
    Some (["GrandfatheredLangTag"; "as_bytes"], [30]); Some (["GrandfatheredLangTag"; "as_bytes"], [30]);
    Some (["GrandfatheredLangTag"; "as_bytes"], [30]); Some (["GrandfatheredLangTag"; "as_bytes"], [30]);
    Some (["GrandfatheredLangTag"; "as_bytes"], [30]); Some (["GrandfatheredLangTag"; "as_bytes"], [30]);
    Some (["GrandfatheredLangTag"; "as_bytes"], [30]); Some (["GrandfatheredLangTag"; "as_bytes"], [30]);
    Some (["GrandfatheredLangTag"; "as_bytes"], [31]); Some (["GrandfatheredLangTag"; "as_bytes"], [31]);
    Some (["GrandfatheredLangTag"; "as_bytes"], [31]); Some (["GrandfatheredLangTag"; "as_bytes"], [31]);
    Some (["GrandfatheredLangTag"; "as_bytes"], [31]); Some (["GrandfatheredLangTag"; "as_bytes"], [32]);
    Some (["GrandfatheredLangTag"; "as_bytes"], [32]); Some (["GrandfatheredLangTag"; "as_bytes"], [32]);
    Some (["GrandfatheredLangTag"; "as_bytes"], [32]); Some (["GrandfatheredLangTag"; "as_bytes"], [32]);
    Some (["GrandfatheredLangTag"; "as_bytes"], [33]); Some (["GrandfatheredLangTag"; "as_bytes"], [33]);
    Some (["GrandfatheredLangTag"; "as_bytes"], [33]); Some (["GrandfatheredLangTag"; "as_bytes"], [33]);
    Some (["GrandfatheredLangTag"; "as_bytes"], [33]); Some (["GrandfatheredLangTag"; "as_bytes"], [33]);
    Some (["GrandfatheredLangTag"; "as_bytes"], [33]); Some (["GrandfatheredLangTag"; "as_bytes"], [33]);
    Some (["GrandfatheredLangTag"; "as_bytes"], [33]); Some (["GrandfatheredLangTag"; "as_bytes"], [34]);
    Some (["GrandfatheredLangTag"; "as_bytes"], [34]); Some (["GrandfatheredLangTag"; "as_bytes"], [34]);
    Some (["GrandfatheredLangTag"; "as_bytes"], [34]); Some (["GrandfatheredLangTag"; "as_bytes"], [34]);
    Some (["GrandfatheredLangTag"; "as_bytes"], [34]); Some (["GrandfatheredLangTag"; "as_bytes"], [34]);
    Some (["GrandfatheredLangTag"; "as_bytes"], [34]); Some (["GrandfatheredLangTag"; "as_bytes"], [34]);
    Some (["GrandfatheredLangTag"; "as_bytes"], [34]); Some (["GrandfatheredLangTag"; "as_bytes"], [35]);
    Some (["GrandfatheredLangTag"; "as_bytes"], [35]); Some (["GrandfatheredLangTag"; "as_bytes"], [35]);
    Some (["GrandfatheredLangTag"; "as_bytes"], [35]); Some (["GrandfatheredLangTag"; "as_bytes"], [35]);
    Some (["GrandfatheredLangTag"; "as_bytes"], [36]); Some (["GrandfatheredLangTag"; "as_bytes"], [36]);
    Some (["GrandfatheredLangTag"; "as_bytes"], [36]); Some (["GrandfatheredLangTag"; "as_bytes"], [36]);
    Some (["GrandfatheredLangTag"; "as_bytes"], [36]); Some (["GrandfatheredLangTag"; "as_bytes"], [36]);
    Some (["GrandfatheredLangTag"; "as_bytes"], [36]); Some (["GrandfatheredLangTag"; "as_bytes"], [36]);
    Some (["GrandfatheredLangTag"; "as_bytes"], [36]); Some (["GrandfatheredLangTag"; "as_bytes"], [37]);
    Some (["GrandfatheredLangTag"; "as_bytes"], [37]); Some (["GrandfatheredLangTag"; "as_bytes"], [37]);
    Some (["GrandfatheredLangTag"; "as_bytes"], [37]); Some (["GrandfatheredLangTag"; "as_bytes"], [37]);
    Some (["GrandfatheredLangTag"; "as_bytes"], [38]); Some (["GrandfatheredLangTag"; "as_bytes"], [38]);
    Some (["GrandfatheredLangTag"; "as_bytes"], [38]); Some (["GrandfatheredLangTag"; "as_bytes"], [38]);
    Some (["GrandfatheredLangTag"; "as_bytes"], [38]); Some (["GrandfatheredLangTag"; "as_bytes"], [38]);
    Some (["GrandfatheredLangTag"; "as_bytes"], [38]); Some (["GrandfatheredLangTag"; "as_bytes"], [39]);
    Some (["GrandfatheredLangTag"; "as_bytes"], [39]); Some (["GrandfatheredLangTag"; "as_bytes"], [39]);
    Some (["GrandfatheredLangTag"; "as_bytes"], [39]); Some (["GrandfatheredLangTag"; "as_bytes"], [39]);
    Some (["GrandfatheredLangTag"; "as_bytes"], [39]); Some (["GrandfatheredLangTag"; "as_bytes"], [39]);
    Some (["GrandfatheredLangTag"; "as_bytes"], [39]); Some (["GrandfatheredLangTag"; "as_bytes"], [40]);
    Some (["GrandfatheredLangTag"; "as_bytes"], [40]); Some (["GrandfatheredLangTag"; "as_bytes"], [40]);
    Some (["GrandfatheredLangTag"; "as_bytes"], [40]); Some (["GrandfatheredLangTag"; "as_bytes"], [40]);
    Some (["GrandfatheredLangTag"; "as_bytes"], [41]); Some (["GrandfatheredLangTag"; "as_bytes"], [41]);
    Some (["GrandfatheredLangTag"; "as_bytes"], [41]); Some (["GrandfatheredLangTag"; "as_bytes"], [41]);
    Some (["GrandfatheredLangTag"; "as_bytes"], [41]); Some (["GrandfatheredLangTag"; "as_bytes"], [42]);
    Some (["GrandfatheredLangTag"; "as_bytes"], [42]); Some (["GrandfatheredLangTag"; "as_bytes"], [42]);
    Some (["GrandfatheredLangTag"; "as_bytes"], [42]); Some (["GrandfatheredLangTag"; "as_bytes"], [42]);
    Some (["GrandfatheredLangTag"; "as_bytes"], [43]); Some (["GrandfatheredLangTag"; "as_bytes"], [43]);
    Some (["GrandfatheredLangTag"; "as_bytes"], [43]); Some (["GrandfatheredLangTag"; "as_bytes"], [43]);
    Some (["GrandfatheredLangTag"; "as_bytes"], [43]); Some (["GrandfatheredLangTag"; "as_bytes"], [44]);
    Some (["GrandfatheredLangTag"; "as_bytes"], [44]); Some (["GrandfatheredLangTag"; "as_bytes"], [44]);
    Some (["GrandfatheredLangTag"; "as_bytes"], [44]); Some (["GrandfatheredLangTag"; "as_bytes"], [44]);
    Some (["GrandfatheredLangTag"; "as_bytes"], [44]); Some (["GrandfatheredLangTag"; "as_bytes"], [44]);
    Some (["GrandfatheredLangTag"; "as_bytes"], [44]); Some (["GrandfatheredLangTag"; "as_bytes"], [44]);
    Some (["GrandfatheredLangTag"; "as_bytes"], [45]); Some (["GrandfatheredLangTag"; "as_bytes"], [45]);
    Some (["GrandfatheredLangTag"; "as_bytes"], [45]); Some (["GrandfatheredLangTag"; "as_bytes"], [45]);
    Some (["GrandfatheredLangTag"; "as_bytes"], [45]); Some (["GrandfatheredLangTag"; "as_bytes"], [45]);
    Some (["GrandfatheredLangTag"; "as_bytes"], [45]); Some (["GrandfatheredLangTag"; "as_bytes"], [45]);
    Some (["GrandfatheredLangTag"; "as_bytes"], [45]); Some (["GrandfatheredLangTag"; "as_bytes"], [46]);
    Some (["GrandfatheredLangTag"; "as_bytes"], [46]); Some (["GrandfatheredLangTag"; "as_bytes"], [46]);
    Some (["GrandfatheredLangTag"; "as_bytes"], [46]); Some (["GrandfatheredLangTag"; "as_bytes"], [46]);
    Some (["GrandfatheredLangTag"; "as_bytes"], [46]); Some (["GrandfatheredLangTag"; "as_bytes"], [46]);
    Some (["GrandfatheredLangTag"; "as_bytes"], [46]); Some (["GrandfatheredLangTag"; "as_bytes"], [46]);
    Some (["GrandfatheredLangTag"; "as_bytes"], [47]); Some (["GrandfatheredLangTag"; "as_bytes"], [47]);
    Some (["GrandfatheredLangTag"; "as_bytes"], [47]); Some (["GrandfatheredLangTag"; "as_bytes"], [47]);
    Some (["GrandfatheredLangTag"; "as_bytes"], [47]); Some (["GrandfatheredLangTag"; "as_bytes"], [47]);
    Some (["GrandfatheredLangTag"; "as_bytes"], [47]); Some (["GrandfatheredLangTag"; "as_bytes"], [47]);
    Some (["GrandfatheredLangTag"; "as_bytes"], [47]); Some (["GrandfatheredLangTag"; "as_bytes"], [47]);
    Some (["GrandfatheredLangTag"; "as_bytes"], [48]); Some (["GrandfatheredLangTag"; "as_bytes"], [48]);
    Some (["GrandfatheredLangTag"; "as_bytes"], [48]); Some (["GrandfatheredLangTag"; "as_bytes"], [48]);
    Some (["GrandfatheredLangTag"; "as_bytes"], [48]); Some (["GrandfatheredLangTag"; "as_bytes"], [48]);
    Some (["GrandfatheredLangTag"; "as_bytes"], [48]); Some (["GrandfatheredLangTag"; "as_bytes"], [48]);
    Some (["GrandfatheredLangTag"; "as_bytes"], [48]); Some (["GrandfatheredLangTag"; "as_bytes"], [48]);
    Some (["GrandfatheredLangTag"; "as_bytes"], [48]); Some (["GrandfatheredLangTag"; "as_bytes"], [49]);
    Some (["GrandfatheredLangTag"; "as_bytes"], [49]); Some (["GrandfatheredLangTag"; "as_bytes"], [49]);
    Some (["GrandfatheredLangTag"; "as_bytes"], [49]); Some (["GrandfatheredLangTag"; "as_bytes"], [49]);
    Some (["GrandfatheredLangTag"; "as_bytes"], [49]); Some (["GrandfatheredLangTag"; "as_bytes"], [50]);
    Some (["GrandfatheredLangTag"; "as_bytes"], [50]); Some (["GrandfatheredLangTag"; "as_bytes"], [50]);
    Some (["GrandfatheredLangTag"; "as_bytes"], [50]); Some (["GrandfatheredLangTag"; "as_bytes"], [50]);
    Some (["GrandfatheredLangTag"; "as_bytes"], [50]); Some (["GrandfatheredLangTag"; "as_bytes"], [51]);
    Some (["GrandfatheredLangTag"; "as_bytes"], [51]); Some (["GrandfatheredLangTag"; "as_bytes"], [51]);
    Some (["GrandfatheredLangTag"; "as_bytes"], [51]); Some (["GrandfatheredLangTag"; "as_bytes"], [51]);
    Some (["GrandfatheredLangTag"; "as_bytes"], [51]); Some (["GrandfatheredLangTag"; "as_bytes"], [51]);
    Some (["GrandfatheredLangTag"; "as_bytes"], [51]); Some (["GrandfatheredLangTag"; "as_bytes"], [52]);
    Some (["GrandfatheredLangTag"; "as_bytes"], [52]); Some (["GrandfatheredLangTag"; "as_bytes"], [52]);
    Some (["GrandfatheredLangTag"; "as_bytes"], [52]); Some (["GrandfatheredLangTag"; "as_bytes"], [52]);
    Some (["GrandfatheredLangTag"; "as_bytes"], [52]); Some (["GrandfatheredLangTag"; "as_bytes"], [52]);
    Some (["GrandfatheredLangTag"; "as_bytes"], [52]); Some (["GrandfatheredLangTag"; "as_bytes"], [53]);
    Some (["GrandfatheredLangTag"; "as_bytes"], [53]); Some (["GrandfatheredLangTag"; "as_bytes"], [53]);
    Some (["GrandfatheredLangTag"; "as_bytes"], [53]); Some (["GrandfatheredLangTag"; "as_bytes"], [53]);
    Some (["GrandfatheredLangTag"; "as_bytes"], [53]); Some (["GrandfatheredLangTag"; "as_bytes"], [54]);
    Some (["GrandfatheredLangTag"; "as_bytes"], [54]); Some (["GrandfatheredLangTag"; "as_bytes"], [54]);
    Some (["GrandfatheredLangTag"; "as_bytes"], [54]); Some (["GrandfatheredLangTag"; "as_bytes"], [54]);
    Some (["GrandfatheredLangTag"; "as_bytes"], [54]); Some (["GrandfatheredLangTag"; "as_bytes"], [54]);
    Some (["GrandfatheredLangTag"; "as_bytes"], [54]); Some (["GrandfatheredLangTag"; "as_bytes"], [54]);
    Some (["GrandfatheredLangTag"; "as_bytes"], [54]); Some (["GrandfatheredLangTag"; "as_bytes"], [55]);
    Some (["GrandfatheredLangTag"; "as_bytes"], [55]); Some (["GrandfatheredLangTag"; "as_bytes"], [55]);
    Some (["GrandfatheredLangTag"; "as_bytes"], [55]); Some (["GrandfatheredLangTag"; "as_bytes"], [55]);
    Some (["GrandfatheredLangTag"; "as_bytes"], [55]); Some (["GrandfatheredLangTag"; "as_bytes"], [55]);
    Some (["GrandfatheredLangTag"; "as_bytes"], [55]); Some (["GrandfatheredLangTag"; "language"], [47]);
    Some (["GrandfatheredLangTag"; "language"], [47]); Some (["GrandfatheredLangTag"; "language"], [47]);
    Some (["GrandfatheredLangTag"; "language"], [48]); Some (["GrandfatheredLangTag"; "language"], [48]);
    Some (["GrandfatheredLangTag"; "language"], [48]); Some (["GrandfatheredLangTag"; "language"], [49]);
    Some (["GrandfatheredLangTag"; "language"], [49]); Some (["GrandfatheredLangTag"; "language"], [50]);
    Some (["GrandfatheredLangTag"; "language"], [50]); Some (["GrandfatheredLangTag"; "language"], [51]);
    Some (["GrandfatheredLangTag"; "language"], [51]); Some (["GrandfatheredLangTag"; "language"], [52]);
    Some (["GrandfatheredLangTag"; "language"], [52]); Some (["GrandfatheredLangTag"; "language"], [53]);
    Some (["GrandfatheredLangTag"; "language"], [53]); Some (["GrandfatheredLangTag"; "language"], [54]);
    Some (["GrandfatheredLangTag"; "language"], [54]); Some (["GrandfatheredLangTag"; "language"], [55]);
    Some (["GrandfatheredLangTag"; "language"], [55]); Some (["LangTag"; "partial_cmp"], [0; 2]);
    Some (["LangTag"; "partial_cmp"], [0; 0]); Some (["LangTag"; "partial_cmp"], [0; 0]);
    Some (["LangTag"; "partial_cmp"], [0; 0]); Some (["LangTag"; "partial_cmp"], [0; 0]);
    Some (["LangTag"; "partial_cmp"], [0; 0]); Some (["LangTag"; "partial_cmp"], [0; 0]);
    Some (["LangTag"; "partial_cmp"], [0; 0]); Some (["LangTag"; "partial_cmp"], [6; 0]);
    Some (["ExtensionSubtag"; "cmp"], [21; 20]); Some (["LangTag"; "partial_cmp"], [0; 0]);
    Some (["LangTag"; "partial_cmp"], [0; 6]); Some (["LangTag"; "partial_cmp"], [0; 6]);
    Some (["ExtensionSubtag"; "cmp"], [20; 21]); Some (["LangTag"; "partial_cmp"], [0; 0]);
    Some (["LangTag"; "partial_cmp"], [0; 4]); Some (["LangTag"; "is_grandfathered"], [2]);
    Some (["LangTag"; "is_grandfathered"], [2]); Some (["PrivateUseSubtag"; "eq"], [12; 13]);
    Some (["LangTag"; "is_grandfathered"], [3]); Some (["LangTag"; "is_grandfathered"], [3]);
    Some (["LangTag"; "is_grandfathered"], [5]); Some (["LangTag"; "is_grandfathered"], [5]);
    Some (["LangTag"; "is_grandfathered"], [5]); Some (["LangTag"; "is_grandfathered"], [2]);
    Some (["LangTag"; "is_grandfathered"], [0]); Some (["LangTag"; "eq"], [0; 1]); Some (["LangTag"; "eq"], [0; 1]);
    Some (["LangTag"; "eq"], [0; 1]) ].

Definition edit_pool : list value := Eval vm_compute in match stepped_all [] edit_script with Some l => l | None => [] end.
Lemma edit_pool_eq : stepped_all [] edit_script = Some edit_pool.
Proof. vm_cast_no_check (eq_refl (Some edit_pool)). Qed.
Lemma edit_pool_reached : Forall (reached crate runs) edit_pool.
Proof. exact (stepped_all_reached edit_script [] edit_pool (Forall_nil _) edit_pool_eq). Qed.

Definition edit_of (l : list (string * string * nat)) (e : entry) (i : nat) : bool :=
  existsb (fun x => String.eqb (fst (fst x)) (en_type e) && String.eqb (snd (fst x)) (fn_name (en_fn e)) && (snd x =? i)) l.
(** The edits that change nothing a client can see, and those with which a call gives no result, by type, function and number. *)
Definition local_edit : entry -> nat -> bool := edit_of
  [ ("VariantsIter", "next_back", 4); ("Extensions", "get", 2); ("Extensions", "get", 4); ("", "find_segment_start", 1);
    ("", "find_segment_start", 2); ("", "find_segment_start", 4); ("", "find_segment_start", 14);
    ("", "find_segment_start", 19) ].
Definition silent_edit : entry -> nat -> bool := edit_of
  [ ("VariantsIter", "next_back", 3); ("Extensions", "get", 3); ("Extensions", "get", 25); ("", "find_segment_start", 13);
    ("", "find_segment_start", 18); ("", "case_insensitive_cmp", 9); ("", "case_insensitive_cmp", 13);
    ("", "case_insensitive_cmp", 14) ].

(** One more of the former, in a function that many use: [codepoint <= u8::MAX as u32] in [TryFrom<char> for Singleton]. *)
Definition wide_edit : entry -> nat -> bool := edit_of [ ("Singleton", "try_from", 1) ].
Definition same_edit (e : entry) (i : nat) : bool := local_edit e i || wide_edit e i.

(** Whether the call is one a client can make, and returns; and whether the edited program gives another result. *)
Definition client_call (w : list string * list nat) : option (list value * outcome (value * list value)) :=
  match sig (fst w), picked edit_pool (snd w) with
  | Some tys, Some args =>
    if typesb tys args && (rooms args <=? 1000) then
      match call 1000 crate 300 (VPath (fst w)) args with Ret v => Some (args, Ret v) | _ => None end
    else None
  | _, _ => None
  end.
Definition noticed (l : list entry) (w : list string * list nat) : bool :=
  match client_call w with
  | Some (args, r) => other_result r (call 1000 (with_fns l) 300 (VPath (fst w)) args)
  | None => false
  end.
Fixpoint all_noticed (c : list (entry * nat * list entry)) (w : list (option (list string * list nat))) : bool :=
  match c, w with
  | [], [] => true
  | (e, i, l) :: c, Some w1 :: w =>
    negb (same_edit e i) && (if silent_edit e i then match client_call w1 with Some _ => true | None => false end else noticed l w1) &&
    all_noticed c w
  | (e, i, l) :: c, None :: w => same_edit e i && all_noticed c w
  | _, _ => false
  end.
Lemma edits_noticed : all_noticed (entry_edits in_grammar (fns crate)) edit_witnesses = true.
Proof. vm_cast_no_check (eq_refl true). Qed.
