(** Containers keyed by the types of the crate, which use of their keys only what the crate implements: [Ord::cmp]
    (as [BTreeMap] and the sorting of slices do) or [Hash] and [==] (as [HashMap] does).  The containers are not code of
    /repo; they stand for its users.  What they call is: [cmp_of], [eq_of] and [hash_of], that is, the implementations
    at /repo/src/lib.rs:180-206 for [LangTag], and those of Newtypes.v for the others. *)
From Verif Require Import Base GrammarRs Validate Utils Newtypes Spec.

(** * 1. What a map is, up to letter case *)

Inductive map_op (V : Type) := Insert (k : bytes) (v : V) | Remove (k : bytes) | Get (k : bytes).
Arguments Insert {V}. Arguments Remove {V}. Arguments Get {V}.
Definition op_key {V} (o : map_op V) : bytes := match o with Insert k _ | Remove k | Get k => k end.

(** A map from lowercase texts to values, as a function; each operation tells the value that was there before. *)
Definition text_eqb (a b : bytes) : bool := if list_eq_dec Byte.byte_eq_dec a b then true else false.
Definition abstract_step {V} (o : map_op V) (m : bytes -> option V) : bytes -> option V :=
  match o with
  | Insert k v => fun x => if text_eqb (map lower k) x then Some v else m x
  | Remove k => fun x => if text_eqb (map lower k) x then None else m x
  | Get _ => m
  end.
Fixpoint abstract_run {V} (ops : list (map_op V)) (m : bytes -> option V) : list (option V) :=
  match ops with
  | [] => []
  | o :: ops' => m (map lower (op_key o)) :: abstract_run ops' (abstract_step o m)
  end.
Fixpoint abstract_after {V} (ops : list (map_op V)) (m : bytes -> option V) : bytes -> option V :=
  match ops with
  | [] => m
  | o :: ops' => abstract_after ops' (abstract_step o m)
  end.

(** * 2. A search tree *)

Inductive tree (V : Type) := Leaf | Node (l : tree V) (k : bytes) (v : V) (r : tree V).
Arguments Leaf {V}. Arguments Node {V}.
Fixpoint tree_get {V} (ty : newtype) (t : tree V) (k : bytes) : outcome (option V) :=
  match t with
  | Leaf => Ret None
  | Node l k' v r =>
    let! c := cmp_of ty k k' in
    match c with Eq => Ret (Some v) | Lt => tree_get ty l k | Gt => tree_get ty r k end
  end.
(** A key that is there is kept; its value is replaced. *)
Fixpoint tree_insert {V} (ty : newtype) (t : tree V) (k : bytes) (v : V) : outcome (tree V) :=
  match t with
  | Leaf => Ret (Node Leaf k v Leaf)
  | Node l k' v' r =>
    let! c := cmp_of ty k k' in
    match c with
    | Eq => Ret (Node l k' v r)
    | Lt => let! l' := tree_insert ty l k v in Ret (Node l' k' v' r)
    | Gt => let! r' := tree_insert ty r k v in Ret (Node l k' v' r')
    end
  end.
Fixpoint tree_join {V} (l r : tree V) : tree V :=
  match l with
  | Leaf => r
  | Node a k v b => Node a k v (tree_join b r)
  end.
Fixpoint tree_remove {V} (ty : newtype) (t : tree V) (k : bytes) : outcome (tree V) :=
  match t with
  | Leaf => Ret Leaf
  | Node l k' v' r =>
    let! c := cmp_of ty k k' in
    match c with
    | Eq => Ret (tree_join l r)
    | Lt => let! l' := tree_remove ty l k in Ret (Node l' k' v' r)
    | Gt => let! r' := tree_remove ty r k in Ret (Node l k' v' r')
    end
  end.
(** Its entries, in the order of iteration. *)
Fixpoint tree_entries {V} (t : tree V) : list (bytes * V) :=
  match t with
  | Leaf => []
  | Node l k v r => tree_entries l ++ (k, v) :: tree_entries r
  end.
Definition tree_step {V} (ty : newtype) (o : map_op V) (t : tree V) : outcome (tree V) :=
  match o with
  | Insert k v => tree_insert ty t k v
  | Remove k => tree_remove ty t k
  | Get _ => Ret t
  end.
(** The answers of a sequence of operations, and the tree at the end. *)
Fixpoint tree_run {V} (ty : newtype) (ops : list (map_op V)) (t : tree V) : outcome (list (option V) * tree V) :=
  match ops with
  | [] => Ret ([], t)
  | o :: ops' =>
    let! r := tree_get ty t (op_key o) in
    let! t' := tree_step ty o t in
    let! rs := tree_run ty ops' t' in
    Ret (r :: fst rs, snd rs)
  end.

(** * 3. A hash table *)

(** [n] buckets; [finish] gives the number of a state of the hasher, and [st0] is its initial state. *)
Record table (V : Type) := Table { t_size : nat; t_buckets : nat -> list (bytes * V) }.
Arguments Table {V}. Arguments t_size {V}. Arguments t_buckets {V}.
Definition bucket (ty : newtype) (H : hasher) (finish : hstate H -> nat) (st0 : hstate H) (n : nat) (k : bytes) : nat :=
  finish (hash_of ty H k st0) mod n.
Fixpoint bucket_get {V} (ty : newtype) (l : list (bytes * V)) (k : bytes) : outcome (option V) :=
  match l with
  | [] => Ret None
  | (k', v) :: l' => let! b := eq_of ty k k' in if b then Ret (Some v) else bucket_get ty l' k
  end.
Fixpoint bucket_insert {V} (ty : newtype) (l : list (bytes * V)) (k : bytes) (v : V) : outcome (list (bytes * V)) :=
  match l with
  | [] => Ret [(k, v)]
  | (k', v') :: l' =>
    let! b := eq_of ty k k' in
    if b then Ret ((k', v) :: l') else let! r := bucket_insert ty l' k v in Ret ((k', v') :: r)
  end.
Fixpoint bucket_remove {V} (ty : newtype) (l : list (bytes * V)) (k : bytes) : outcome (list (bytes * V)) :=
  match l with
  | [] => Ret []
  | (k', v') :: l' =>
    let! b := eq_of ty k k' in
    if b then Ret l' else let! r := bucket_remove ty l' k in Ret ((k', v') :: r)
  end.
Definition set_bucket {V} (t : table V) (i : nat) (l : list (bytes * V)) : table V :=
  Table (t_size t) (fun j => if j =? i then l else t_buckets t j).
Definition table_entries {V} (t : table V) : list (bytes * V) := flat_map (t_buckets t) (seq 0 (t_size t)).

Section Table.
Context {V : Type}.
Variable ty : newtype.
Variable H : hasher.
Variable finish : hstate H -> nat.
Variable st0 : hstate H.

Definition table_get (t : table V) (k : bytes) : outcome (option V) :=
  bucket_get ty (t_buckets t (bucket ty H finish st0 (t_size t) k)) k.
Definition table_insert (t : table V) (k : bytes) (v : V) : outcome (table V) :=
  let i := bucket ty H finish st0 (t_size t) k in
  let! l := bucket_insert ty (t_buckets t i) k v in
  Ret (set_bucket t i l).
Definition table_remove (t : table V) (k : bytes) : outcome (table V) :=
  let i := bucket ty H finish st0 (t_size t) k in
  let! l := bucket_remove ty (t_buckets t i) k in
  Ret (set_bucket t i l).
Fixpoint table_insert_all (l : list (bytes * V)) (t : table V) : outcome (table V) :=
  match l with
  | [] => Ret t
  | (k, v) :: l' => let! t' := table_insert t k v in table_insert_all l' t'
  end.
(** A new table with [n] buckets and the same entries. *)
Definition table_resize (n : nat) (t : table V) : outcome (table V) :=
  table_insert_all (table_entries t) (Table n (fun _ => [])).
Definition table_step (o : map_op V) (t : table V) : outcome (table V) :=
  match o with
  | Insert k v => table_insert t k v
  | Remove k => table_remove t k
  | Get _ => Ret t
  end.
(** Each operation comes with the number of buckets (less one) to move to before it, if any. *)
Fixpoint table_run (ops : list (option nat * map_op V)) (t : table V) : outcome (list (option V) * table V) :=
  match ops with
  | [] => Ret ([], t)
  | (g, o) :: ops' =>
    let! t := match g with Some n => table_resize (S n) t | None => Ret t end in
    let! r := table_get t (op_key o) in
    let! t' := table_step o t in
    let! rs := table_run ops' t' in
    Ret (r :: fst rs, snd rs)
  end.
End Table.

(** * 4. Sorting and searching slices *)

(** [l] is sorted: no value is greater than a later one. *)
Definition sorted_by (ty : newtype) (l : list bytes) : Prop :=
  forall i j a b, i < j -> nth_error l i = Some a -> nth_error l j = Some b -> cmp_of ty a b <> Ret Gt.

(** Sorting by insertion: stable, as [slice::sort] is. *)
Fixpoint insert_sorted (ty : newtype) (x : bytes) (l : list bytes) : outcome (list bytes) :=
  match l with
  | [] => Ret [x]
  | y :: l' =>
    let! c := cmp_of ty x y in
    match c with Gt => let! r := insert_sorted ty x l' in Ret (y :: r) | _ => Ret (x :: l) end
  end.
Fixpoint sort (ty : newtype) (l : list bytes) : outcome (list bytes) :=
  match l with
  | [] => Ret []
  | x :: l' => let! r := sort ty l' in insert_sorted ty x r
  end.
(** [Vec::dedup]: of neighbours that are equal, the first stays. *)
Fixpoint dedup_from (ty : newtype) (x : bytes) (l : list bytes) : outcome (list bytes) :=
  match l with
  | [] => Ret [x]
  | y :: l' =>
    let! b := eq_of ty y x in
    if b then dedup_from ty x l' else let! r := dedup_from ty y l' in Ret (x :: r)
  end.
Definition dedup (ty : newtype) (l : list bytes) : outcome (list bytes) :=
  match l with [] => Ret [] | x :: l' => dedup_from ty x l' end.
(** [slice::binary_search] between [lo] and [hi]: where an equal value is, or where it would go. *)
Fixpoint binary_search (ty : newtype) (fuel : nat) (l : list bytes) (x : bytes) (lo hi : nat) : outcome (result nat nat) :=
  match fuel with
  | O => OutOfFuel
  | S fuel' =>
    if lo <? hi then
      let mid := lo + (hi - lo) / 2 in
      match nth_error l mid with
      | Some y =>
        let! c := cmp_of ty y x in
        match c with
        | Eq => Ret (Ok mid)
        | Lt => binary_search ty fuel' l x (mid + 1) hi
        | Gt => binary_search ty fuel' l x lo mid
        end
      | None => Panic
      end
    else Ret (Err lo)
  end.
