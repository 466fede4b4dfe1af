(** Vocabulary of the property statements: ways to observe the modelled API.  Nothing here models code of /repo
    and nothing here is used by the model. *)
From Verif Require Import Base GrammarRs Validate Utils Grandfathered Normal LangTag Newtypes Derived Cost Spec.

(** * 1. Constructors *)

(** [X::new] borrows unchanged the strings that satisfy [P] and hands back unchanged all others; it always
    returns. *)
Definition decides (ty : newtype) (P : bytes -> Prop) : Prop :=
  forall s, (new_of ty s = Ret (Ok s) /\ P s) \/ (new_of ty s = Ret (Err s) /\ ~ P s).

(** [X::new(s)] succeeds. *)
Definition accepted (ty : newtype) (s : bytes) : Prop := new_of ty s = Ret (Ok s).
Definition accepted_opt (ty : newtype) (o : option bytes) : Prop :=
  match o with Some s => accepted ty s | None => True end.

(** Contract of the external UTF-8 decoder. *)
(** ASCII bytes decode as themselves, one byte long; other bytes give an error or a non-ASCII character. *)
Definition decoder_ok (d : decoder) : Prop :=
  forall s i b, nth_error s i = Some b ->
    ((code b < 128)%N -> d s i = Some (code b, 1)) /\
    ((128 <= code b)%N -> match d s i with Some (c, _) => (128 <= c)%N | None => True end).

(** It consumes at least one byte. *)
Definition advances (d : decoder) : Prop := forall s i c n, d s i = Some (c, n) -> 1 <= n.

(** * 2. Iterators *)

(** [k] calls of [next]. *)
Fixpoint calls {I} (next : I -> outcome (option bytes * I)) (k : nat) (it : I) : outcome (list (option bytes)) :=
  match k with
  | O => Ret []
  | S k' =>
    let! r := next it in
    let! rs := calls next k' (snd r) in
    Ret (fst r :: rs)
  end.

(** A sequence of calls of [next] and [next_back]. *)
Fixpoint calls_de {I} (next next_back : I -> outcome (option bytes * I)) (ops : list deque_op) (it : I)
  : outcome (list (option bytes)) :=
  match ops with
  | [] => Ret []
  | op :: ops' =>
    let! r := (match op with Front => next it | Back => next_back it end) in
    let! rs := calls_de next next_back ops' (snd r) in
    Ret (fst r :: rs)
  end.

(** * 3. Panics and termination *)

(** The loops were given enough fuel: the function returns or panics. *)
Definition terminates {A} (x : outcome A) : Prop := x <> OutOfFuel.

(** Both return, with related values, or both panic. *)
Definition same_outcome {A} (R : A -> A -> Prop) (x y : outcome A) : Prop :=
  match x, y with
  | Ret a, Ret b => R a b
  | Panic, Panic => True
  | _, _ => False
  end.

(** Classified alike, with texts equal up to case. *)
Definition same_typed (x y : typed) : Prop :=
  match x, y with
  | TNormal a, TNormal b | TPrivateUse a, TPrivateUse b => same_ci a b
  | TGrandfathered g, TGrandfathered h => g = h
  | _, _ => False
  end.

(** * 4. Positions *)

(** The [i]-th of language, script, region, variants, extensions: its range, if it is present. *)
Definition component_range (i : nat) (s : bytes) : outcome (option (nat * nat)) :=
  match i with
  | 0 => let! e := language_end s in Ret (Some (0, e))
  | 1 => let! r := script_range s in Ret (ok r)
  | 2 => let! r := region_range s in Ret (ok r)
  | 3 => let! r := variants_range s in Ret (if fst r <? snd r then Some r else None)
  | _ => let! r := extensions_range s in Ret (if fst r <? snd r then Some r else None)
  end.

(** Its text, as the accessor gives it. *)
Definition component_value (i : nat) (s : bytes) : outcome (option bytes) :=
  match i with
  | 0 => let! x := NormalLangTag_language s in Ret (Some x)
  | 1 => NormalLangTag_script s
  | 2 => NormalLangTag_region s
  | 3 => let! x := NormalLangTag_variants s in Ret (if nonempty x then Some x else None)
  | _ => let! x := NormalLangTag_extensions s in Ret (if nonempty x then Some x else None)
  end.

(** The bytes [a..b] of [s]. *)
Definition sub (s : bytes) (a b : nat) : bytes := firstn (b - a) (skipn a s).

(** * 5. Collecting *)

(** [Iterator::collect] with at most [n] calls of [next]: the items before the first [None]. *)
Fixpoint collect {I} (next : I -> outcome (option bytes * I)) (n : nat) (it : I) : outcome (list bytes) :=
  match n with
  | O => OutOfFuel
  | S n' =>
    let! r := next it in
    match fst r with
    | Some x => let! xs := collect next n' (snd r) in Ret (x :: xs)
    | None => Ret []
    end
  end.

(** * 6. Hashing and ordering *)

(** A hasher that records the bytes it is fed by [write_u8]. *)
Definition trace_hasher : hasher := Hasher (list byte) (fun l b => l ++ [b]) (fun l _ => l).
(** The bytes that hashing [a] feeds to a hasher. *)
Definition fed (ty : newtype) (a : bytes) : bytes := hash_of ty trace_hasher a [].

(** What one value feeds is never a proper prefix of what another value of the type feeds. *)
Definition prefix_free (ty : newtype) : Prop :=
  forall a b, accepted ty a -> accepted ty b -> prefix (fed ty a) (fed ty b) -> fed ty a = fed ty b.

(** A comparison function is a total order. *)
Definition total_order {A} (cmp : A -> A -> comparison) : Prop :=
  (forall a b, cmp a b = Eq <-> a = b) /\ (forall a b, cmp b a = CompOpp (cmp a b)) /\
  (forall a b c, cmp a b = Lt -> cmp b c = Lt -> cmp a c = Lt).

(** * 7. Reassembling a normal tag from its accessors *)

(** All six accessors, joined. *)
Definition reassemble (s : bytes) : outcome bytes :=
  let! l := NormalLangTag_language s in
  let! c := NormalLangTag_script s in
  let! r := NormalLangTag_region s in
  let! v := NormalLangTag_variants s in
  let! e := NormalLangTag_extensions s in
  let! p := NormalLangTag_private_use s in
  Ret (join_present [l; or_empty c; or_empty r; v; e; or_empty p]).

(** Without private use. *)
Definition reassemble_to_extensions (s : bytes) : outcome bytes :=
  let! l := NormalLangTag_language s in
  let! c := NormalLangTag_script s in
  let! r := NormalLangTag_region s in
  let! v := NormalLangTag_variants s in
  let! e := NormalLangTag_extensions s in
  Ret (join_present [l; or_empty c; or_empty r; v; e]).

(** Without extensions. *)
Definition reassemble_no_extensions (s : bytes) : outcome bytes :=
  let! l := NormalLangTag_language s in
  let! c := NormalLangTag_script s in
  let! r := NormalLangTag_region s in
  let! v := NormalLangTag_variants s in
  let! p := NormalLangTag_private_use s in
  Ret (join_present [l; or_empty c; or_empty r; v; or_empty p]).

(** * 8. Callers' loops, with their costs *)

(** [k] calls of [next]. *)
Fixpoint k_calls {I} (next : I -> costed (option bytes * I)) (k : nat) (it : I) : costed (list (option bytes)) :=
  match k with
  | O => free (Ret [])
  | S k' => let$ r := next it in let$ rs := k_calls next k' (snd r) in free (Ret (fst r :: rs))
  end.
(** A loop [for x in iter], and [collect]: calls of [next] up to the first [None], at most [n]. *)
Fixpoint k_collect {I} (next : I -> costed (option bytes * I)) (n : nat) (it : I) : costed (list bytes) :=
  match n with
  | O => free OutOfFuel
  | S n' =>
    let$ r := next it in
    match fst r with
    | Some x => let$ xs := k_collect next n' (snd r) in free (Ret (x :: xs))
    | None => free (Ret [])
    end
  end.
(** Calls of [next] and [next_back], in any order. *)
Fixpoint k_calls_de {I} (next next_back : I -> costed (option bytes * I)) (ops : list deque_op) (it : I)
  : costed (list (option bytes)) :=
  match ops with
  | [] => free (Ret [])
  | op :: ops' =>
    let$ r := (match op with Front => next it | Back => next_back it end) in
    let$ rs := k_calls_de next next_back ops' (snd r) in
    free (Ret (fst r :: rs))
  end.
