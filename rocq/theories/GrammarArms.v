(** Every arm of grammar.rs is used, no character has two, and how many states there must be. *)
From Verif Require Import Base GrammarRs Validate Newtypes Spec Observe RegexEquiv Accept Grammar.
From Verif Require Import RustText RustSyntax RustEval RustProgram RustRefine RustGrammar RustValidate RustSays.
Import Base.
Open Scope string_scope.
Open Scope nat_scope.
Open Scope list_scope.

(** * 1. Texts that lead to a state, and from it to acceptance *)

(** The state after [s], from [q]. *)
Fixpoint after (A : automaton) (q : N) (s : bytes) : option N :=
  match s with
  | [] => Some q
  | b :: s' => match push A q (code b) with Some q' => after A q' s' | None => None end
  end.
Lemma after_run A s : forall q q' t, after A q s = Some q' -> run A q (s ++ t) = run A q' t.
Proof.
  induction s as [|b s IH]; intros q q' t; cbn; [now intros [= ->]|].
  destruct (push A q (code b)) as [p|]; [apply IH|discriminate].
Qed.
Lemma after_app A s : forall q t, after A q (s ++ t) = match after A q s with Some q' => after A q' t | None => None end.
Proof.
  induction s as [|b s IH]; intros q t; cbn; [reflexivity|]. destruct (push A q (code b)) as [p|]; [apply IH|reflexivity].
Qed.

(** A search, which needs no proof: what it finds is checked below. *)
Definition first_byte (rs : list (N * N)) : byte :=
  match rs with (lo, _) :: _ => match Strings.Byte.of_N lo with Some b => b | None => "000"%byte end | [] => "000"%byte end.
Fixpoint at_state {A} (q : N) (l : list (N * A)) : option A :=
  match l with (p, x) :: l' => if (q =? p)%N then Some x else at_state q l' | [] => None end.
Fixpoint explore (fuel : nat) (t : table_t) (todo seen : list (N * bytes)) : list (N * bytes) :=
  match fuel, todo with
  | S fuel, (q, u) :: todo =>
    match at_state q seen with
    | Some _ => explore fuel t todo seen
    | None =>
      let r := match at_state q t with Some r => r | None => [] end in
      explore fuel t (todo ++ map (fun x => (snd x, u ++ [first_byte (fst x)])) r) ((q, u) :: seen)
    end
  | _, _ => seen
  end.
Definition entries (t : table_t) : list (N * bytes) := explore 3000 t [(0%N, [])] [].
Fixpoint ends (fuel : nat) (t : table_t) (l : list (N * bytes)) : list (N * bytes) :=
  match fuel with
  | O => l
  | S fuel =>
    ends fuel t (fold_left (fun l x =>
      match at_state (fst x) l with
      | Some _ => l
      | None =>
        match find (fun y => match at_state (snd y) l with Some _ => true | None => false end) (snd x) with
        | Some (rs, n) => l ++ [(fst x, first_byte rs :: match at_state n l with Some v => v | None => [] end)]
        | None => l
        end
      end) t l)
  end.
Definition exits (t : table_t) (acc : list N) : list (N * bytes) := ends 40 t (map (fun q => (q, [])) acc).

Definition text_table (ty : newtype) : table_t := match table_of (grammar_type ty) with Some t => t | None => [] end.
Definition text_accepting (ty : newtype) : list N := match accepting_of (grammar_type ty) with Some l => l | None => [] end.
Definition place (ty : newtype) : nat :=
  match ty with
  | LangTagT => 0 | PrivateUseT => 1 | PrivateUseSubtagT => 2 | NormalLangTagT => 3 | LanguageT => 4 | PrimaryLanguageT => 5
  | LanguageExtensionT => 6 | ExtendedLangTagT => 7 | ScriptT => 8 | RegionT => 9 | VariantT => 10 | VariantsT => 11
  | ExtensionT => 12 | ExtensionSubtagT => 13 | ExtensionsT => 14
  end.
Definition all_tables : list table_t := Eval vm_compute in map text_table new_types.
Definition all_accepting : list (list N) := Eval vm_compute in map text_accepting new_types.
Definition all_entries : list (list (N * bytes)) := Eval vm_compute in map entries all_tables.
Definition all_exits : list (list (N * bytes)) := Eval vm_compute in map (fun x => exits (fst x) (snd x)) (combine all_tables all_accepting).
Lemma tables_text : map (fun ty => table_of (grammar_type ty)) new_types = map Some all_tables.
Proof. vm_cast_no_check (eq_refl (map Some all_tables)). Qed.
Lemma accepting_text : map (fun ty => accepting_of (grammar_type ty)) new_types = map Some all_accepting.
Proof. vm_cast_no_check (eq_refl (map Some all_accepting)). Qed.
Definition the_table ty := nth (place ty) all_tables [].
Definition the_accepting ty := nth (place ty) all_accepting [].
Definition the_entries ty := nth (place ty) all_entries [].
Definition the_exits ty := nth (place ty) all_exits [].
Lemma nth_map_some {A B} (f : A -> option B) l m a b d k : map f l = map Some m -> nth_error l k = Some a ->
  nth k m d = b -> f a = Some b.
Proof.
  intros E N <-. pose proof (map_nth_error f k l N) as X. rewrite E in X.
  destruct (nth_error m k) as [y|] eqn:Y.
  - rewrite (map_nth_error Some k m Y) in X. injection X as X. rewrite <- X. f_equal. symmetry. now apply nth_error_nth.
  - apply nth_error_None in Y. assert (Z : nth_error (map Some m) k = None) by (apply nth_error_None; now rewrite map_length).
    congruence.
Qed.
Lemma the_table_text ty : table_of (grammar_type ty) = Some (the_table ty).
Proof. refine (nth_map_some _ _ _ ty _ [] (place ty) tables_text _ eq_refl). destruct ty; reflexivity. Qed.
Lemma the_accepting_text ty : accepting_of (grammar_type ty) = Some (the_accepting ty).
Proof. refine (nth_map_some _ _ _ ty _ [] (place ty) accepting_text _ eq_refl). destruct ty; reflexivity. Qed.

(** * 2. The arms *)

Definition is_some (x : option N) (n : N) : bool := match x with Some m => (m =? n)%N | None => false end.
Lemma is_some_eq x n : is_some x n = true -> x = Some n.
Proof. destruct x as [m|]; [|discriminate]. intros H. apply N.eqb_eq in H. now subst. Qed.
Definition codes (lo hi : N) : list N := map (fun k => lo + N.of_nat k)%N (seq 0 (S (N.to_nat (hi - lo)))).
Lemma codes_spec lo hi c : (lo <= c)%N -> (c <= hi)%N -> In c (codes lo hi).
Proof. intros L H. apply in_map_iff. exists (N.to_nat (c - lo)). rewrite N2Nat.id, in_seq. split; lia. Qed.

(** A text enters the state [q] of [A]. *)
Definition entered (A : automaton) (l : list (N * bytes)) (q : N) : bool :=
  match at_state q l with Some u => is_some (after A 0 u) q | None => false end.
Definition left (A : automaton) (l : list (N * bytes)) (q : N) : bool :=
  match at_state q l with Some v => run A q v | None => false end.
Definition arm_used (A : automaton) (ex : list (N * bytes)) (q : N) (arm : list (N * N) * N) : bool :=
  left A ex (snd arm) &&
  forallb (fun z => (fst z <=? snd z)%N && (snd z <? 128)%N && forallb (fun c => is_some (push A q c) (snd arm)) (codes (fst z) (snd z)))
    (fst arm).
Definition apart (x y : N * N) : bool := (snd x <? fst y)%N || (snd y <? fst x)%N.
Fixpoint all_apart (l : list (N * N)) : bool :=
  match l with x :: l' => forallb (apart x) l' && all_apart l' | [] => true end.
Fixpoint rising (l : list N) : bool :=
  match l with x :: (y :: _) as l' => (x <? y)%N && rising l' | _ => true end.
Definition arms_used (k : N) (A : automaton) (t : table_t) (acc : list N) (en ex : list (N * bytes)) : bool :=
  forallb (fun x => (fst x <? k)%N && entered A en (fst x) && all_apart (flat_map fst (snd x)) && forallb (arm_used A ex (fst x)) (snd x)) t &&
  forallb (fun q => (q <? k)%N && entered A en q && is_accepting A q) acc && rising (map fst t) && rising acc.

Lemma arms_checked ty : arms_used (states ty) (automaton_of ty) (the_table ty) (the_accepting ty) (the_entries ty) (the_exits ty) = true.
Proof. destruct ty; vm_compute; reflexivity. Qed.

Lemma at_state_some {A} q (l : list (N * A)) x : at_state q l = Some x -> In (q, x) l.
Proof.
  induction l as [|[p y] l IH]; [discriminate|]. cbn. destruct (N.eqb_spec q p) as [->|]; intros H.
  - injection H as ->. now left.
  - right. auto.
Qed.
Lemma entered_by A l q : entered A l q = true -> exists u, after A 0 u = Some q.
Proof. unfold entered. destruct (at_state q l) as [u|]; [|discriminate]. intros H. exists u. now apply is_some_eq. Qed.
Lemma left_by A l q : left A l q = true -> exists v, run A q v = true.
Proof. unfold left. destruct (at_state q l) as [u|]; [|discriminate]. intros H. now exists u. Qed.

(** Each character of each pattern of each arm is on the way of an accepted text. *)
Lemma arm_on_a_way ty q r rs n lo hi c : In (q, r) (the_table ty) -> In (rs, n) r -> In (lo, hi) rs ->
  (lo <= hi)%N /\ ((lo <= c)%N -> (c <= hi)%N -> (q < states ty)%N /\ exists u b v, code b = c /\
    after (automaton_of ty) 0 u = Some q /\ push (automaton_of ty) q c = Some n /\ accepts (automaton_of ty) (u ++ b :: v) = true).
Proof.
  intros I1 I2 I3. pose proof (arms_checked ty) as K. unfold arms_used in K.
  apply andb_prop in K as [K _]. apply andb_prop in K as [K _]. apply andb_prop in K as [K _].
  pose proof (proj1 (forallb_forall _ _) K _ I1) as X. cbn [fst snd] in X.
  apply andb_prop in X as [X X4]. apply andb_prop in X as [X _]. apply andb_prop in X as [X1 X2].
  pose proof (proj1 (forallb_forall _ _) X4 _ I2) as Y. unfold arm_used in Y. cbn [fst snd] in Y. apply andb_prop in Y as [Y1 Y2].
  pose proof (proj1 (forallb_forall _ _) Y2 _ I3) as Z. cbn [fst snd] in Z. apply andb_prop in Z as [Z Z3].
  apply andb_prop in Z as [Z1 Z2]. apply N.leb_le in Z1. apply N.ltb_lt in Z2, X1. split; [exact Z1|]. intros L H.
  split; [exact X1|]. destruct (entered_by _ _ _ X2) as [u U]. destruct (left_by _ _ _ Y1) as [v V].
  pose proof (is_some_eq _ _ (proj1 (forallb_forall _ _) Z3 c (codes_spec _ _ _ L H))) as P.
  assert (B : exists b, code b = c).
  { destruct (Strings.Byte.of_N c) as [b|] eqn:B.
    - exists b. now apply Strings.Byte.to_of_N_iff in B.
    - exfalso. apply Strings.Byte.of_N_None_iff in B. lia. }
  destruct B as [b B]. exists u, b, v. split; [exact B|]. split; [exact U|]. split; [exact P|].
  unfold accepts. change initial with 0%N. rewrite (after_run _ _ _ _ _ U). cbn [run]. now rewrite B, P.
Qed.
Lemma accepting_on_a_way ty q : In q (the_accepting ty) -> (q < states ty)%N /\ is_accepting (automaton_of ty) q = true /\
  exists u, after (automaton_of ty) 0 u = Some q /\ accepts (automaton_of ty) u = true.
Proof.
  intros I. pose proof (arms_checked ty) as K. unfold arms_used in K.
  apply andb_prop in K as [K _]. apply andb_prop in K as [K _]. apply andb_prop in K as [_ K].
  pose proof (proj1 (forallb_forall _ _) K _ I) as X. cbv beta in X. apply andb_prop in X as [X X3]. apply andb_prop in X as [X1 X2].
  apply N.ltb_lt in X1. split; [exact X1|]. split; [exact X3|]. destruct (entered_by _ _ _ X2) as [u U]. exists u.
  split; [exact U|]. unfold accepts. change initial with 0%N. rewrite <- (app_nil_r u), (after_run _ _ _ _ _ U). exact X3.
Qed.

(** No character has two patterns in a state, and no state two arms. *)
Lemma rising_nodup l : rising l = true -> NoDup l.
Proof.
  assert (X : forall l x, rising (x :: l) = true -> forall y, In y l -> (x < y)%N).
  { induction l0 as [|z l0 IH]; intros x H y I; [destruct I|]. cbn [rising] in H. apply andb_prop in H as [H1 H2].
    apply N.ltb_lt in H1. destruct I as [->|I]; [exact H1|]. specialize (IH z H2 y I). lia. }
  induction l as [|x l IH]; intros H; constructor.
  - intros I. pose proof (X _ _ H _ I). lia.
  - apply IH. destruct l as [|y l]; [reflexivity|]. cbn [rising] in H. now apply andb_prop in H.
Qed.
Lemma states_once ty : NoDup (map fst (the_table ty)) /\ NoDup (the_accepting ty).
Proof.
  pose proof (arms_checked ty) as K. unfold arms_used in K. apply andb_prop in K as [K K4]. apply andb_prop in K as [K K3].
  split; now apply rising_nodup.
Qed.
Lemma all_apart_spec l : all_apart l = true -> forall i j x y c, nth_error l i = Some x -> nth_error l j = Some y ->
  (fst x <= c <= snd x)%N -> (fst y <= c <= snd y)%N -> i = j.
Proof.
  induction l as [|z l IH]; intros H i j x y c I J X Y; [destruct i; discriminate|].
  cbn [all_apart] in H. apply andb_prop in H as [H1 H2].
  assert (D : forall w, In w l -> (fst w <= c <= snd w)%N -> (fst z <= c <= snd z)%N -> False).
  { intros w W C Z. pose proof (proj1 (forallb_forall _ _) H1 _ W) as A. unfold apart in A. apply orb_prop in A as [A|A];
      apply N.ltb_lt in A; lia. }
  destruct i as [|i], j as [|j]; cbn in I, J.
  - reflexivity.
  - injection I as ->. exfalso. exact (D y (nth_error_In _ _ J) Y X).
  - injection J as ->. exfalso. exact (D x (nth_error_In _ _ I) X Y).
  - f_equal. exact (IH H2 i j x y c I J X Y).
Qed.
Lemma patterns_once ty q r : In (q, r) (the_table ty) -> forall i j x y c,
  nth_error (flat_map fst r) i = Some x -> nth_error (flat_map fst r) j = Some y ->
  (fst x <= c <= snd x)%N -> (fst y <= c <= snd y)%N -> i = j.
Proof.
  intros I. pose proof (arms_checked ty) as K. unfold arms_used in K.
  apply andb_prop in K as [K _]. apply andb_prop in K as [K _]. apply andb_prop in K as [K _].
  pose proof (proj1 (forallb_forall _ _) K _ I) as X. cbn [fst snd] in X.
  apply andb_prop in X as [X _]. apply andb_prop in X as [_ X]. exact (all_apart_spec _ X).
Qed.

(** * 3. The number of states *)

(** A machine that reads a text: its states are in the list [l]. *)
Fixpoint reads {X} (step : X -> byte -> option X) (acc : X -> bool) (x : X) (s : bytes) : bool :=
  match s with
  | [] => acc x
  | b :: s' => match step x b with Some y => reads step acc y s' | None => false end
  end.
Fixpoint gets {X} (step : X -> byte -> option X) (x : X) (s : bytes) : option X :=
  match s with
  | [] => Some x
  | b :: s' => match step x b with Some y => gets step y s' | None => None end
  end.
Lemma reads_gets {X} (step : X -> byte -> option X) acc s : forall x t,
  reads step acc x (s ++ t) = match gets step x s with Some y => reads step acc y t | None => false end.
Proof. induction s as [|b s IH]; intros x t; cbn; [reflexivity|]. destruct (step x b); [apply IH|reflexivity]. Qed.
Lemma gets_in {X} (step : X -> byte -> option X) (l : list X) s : (forall x b y, In x l -> step x b = Some y -> In y l) ->
  forall x y, In x l -> gets step x s = Some y -> In y l.
Proof.
  intros C. induction s as [|b s IH]; intros x y I; cbn; [now intros [= <-]|].
  destruct (step x b) as [z|] eqn:Z; [|discriminate]. apply IH. exact (C x b z I Z).
Qed.

(** Texts [us], each the beginning of a text that is read, of which [vs] tell each two apart, need as many states. *)
Lemma told_apart {X} (l : list X) start step acc (us : list bytes) (L : bytes -> bool) :
  In start l -> (forall x b y, In x l -> step x b = Some y -> In y l) ->
  (forall s, reads step acc start s = L s) ->
  (forall u, In u us -> exists v, L (u ++ v) = true) ->
  (forall i j u u', nth_error us i = Some u -> nth_error us j = Some u' -> (forall v, L (u ++ v) = L (u' ++ v)) -> i = j) ->
  length us <= length l.
Proof.
  intros S C R E D.
  assert (G : forall u, In u us -> exists y, gets step start u = Some y /\ In y l).
  { intros u I. destruct (E u I) as [v V]. rewrite <- R, reads_gets in V. destruct (gets step start u) as [y|] eqn:Y; [|discriminate].
    exists y. split; [reflexivity|]. exact (gets_in step l u C start y S Y). }
  set (f := fun u => match gets step start u with Some y => y | None => start end).
  assert (N : NoDup (map f us)).
  { apply NoDup_nth_error. intros i j I H. rewrite map_length in I.
    destruct (nth_error us i) as [u|] eqn:U; [|apply nth_error_None in U; lia].
    rewrite (map_nth_error f i us U) in H. symmetry in H.
    destruct (nth_error us j) as [u'|] eqn:U'.
    2:{ exfalso. assert (Z : nth_error (map f us) j = None) by (apply nth_error_None; rewrite map_length; now apply nth_error_None).
        congruence. }
    rewrite (map_nth_error f j us U') in H. injection H as H.
    apply (D i j u u' U U'). intros v. rewrite <- !R, !reads_gets.
    destruct (G u (nth_error_In _ _ U)) as (y & Y & _). destruct (G u' (nth_error_In _ _ U')) as (y' & Y' & _).
    unfold f in H. rewrite Y, Y' in *. now subst. }
  rewrite <- (map_length f us). apply NoDup_incl_length; [exact N|]. intros y I. apply in_map_iff in I as (u & <- & I).
  destruct (G u I) as (y & Y & J). unfold f. now rewrite Y.
Qed.

(** The texts that tell states apart, found by a search and checked here, and the states of [LanguageTag] that accept
    the same texts as an earlier one. *)
Definition pool (ty : newtype) : list bytes :=
  map bs match ty with
  | LangTagT => [""; "o"; "ao"; "-o"; "0"; "tao"; "-tao"; "-000o"; "d"; "e"; "l"; "r"; "i"; "k"; "n"; "t"; "u"; "x";
      "y"; "00"; "de"; "fr"; "ed"; "ak"; "an"; "go"; "jo"; "lt"; "mi"; "nn"; "on"; "ux"; "wn"; "0-o"; "oed"; "-de";
      "-fr"; "ajo"; "gon"; "ian"; "ngo"; "ult"; "e-fr"; "h-de"; "-oed"; "ault"; "hian"; "ingo"; "ngon"; "vajo";
      "be-fr"; "b-oed"; "avajo"; "chian"; "fault"; "ingon"; "gb-oed"; "-be-fr"; "efault"; "lingon"; "nochian";
      "-gb-oed"; "n-be-fr"; "aaa-tao"; "gn-be-fr"; "n-gb-oed"; "-aaa-tao"; "a-aaa-tao"; "aa-aaa-tao"; "aaa-aaa-tao"]
  | PrivateUseT => [""; "0"; "-0"; "00"; "000"; "0000"; "00000"; "000000"; "0000000"]
  | PrivateUseSubtagT => [""; "0"; "00"; "000"; "0000"; "00000"; "000000"; "0000000"]
  | NormalLangTagT => [""; "0"; "a"; "aa"; "-0"; "-aa"; "aaa"; "aaaa"; "aaaaa"; "aaaaaa"; "-aaa"; "0aaaaaa"; "00";
      "0-0"; "a-aaa"; "aa-aaa"; "aaa-aaa"; "-aaa-aaa"; "a-aaa-aaa"; "aa-aaa-aaa"; "aaa-aaa-aaa"]
  | LanguageT => [""; "a"; "aa"; "aaa"; "-aaa"; "a-aaa"; "aaaa"; "aa-aaa"; "aaa-aaa"; "-aaa-aaa"; "a-aaa-aaa";
      "aa-aaa-aaa"; "aaa-aaa-aaa"]
  | PrimaryLanguageT => [""; "a"]
  | LanguageExtensionT => [""; "a"; "aa"; "-aaa"; "a-aaa"; "aa-aaa"; "aaa-aaa"; "-aaa-aaa"; "a-aaa-aaa";
      "aa-aaa-aaa"; "aaa-aaa-aaa"]
  | ExtendedLangTagT => [""; "a"; "aa"]
  | ScriptT => [""; "a"; "aa"; "aaa"]
  | RegionT => [""; "0"; "a"; "00"]
  | VariantT => [""; "0"; "00"; "000"; "a000"; "00000"; "000000"; "0000000"]
  | VariantsT => [""; "0"; "00"; "000"; "a000"; "00000"; "000000"; "0000000"]
  | ExtensionT => [""; "0"; "00"; "-00"; "000"; "0000"; "00000"; "000000"]
  | ExtensionSubtagT => [""; "0"; "00"; "000"; "0000"; "00000"; "000000"]
  | ExtensionsT => [""; "0"; "00"; "-00"; "000"; "0-00"; "0000"; "00000"; "000000"]
  end.
Definition merged : list (N * N) :=
  [(2, 1); (3, 1); (6, 1); (9, 1); (11, 10); (12, 10); (15, 10); (18, 10); (21, 19); (88, 23); (89, 23); (90, 23);
   (91, 24); (92, 76); (93, 76); (94, 76); (95, 76); (96, 77); (97, 46); (98, 77); (99, 78); (100, 79); (101, 81);
   (102, 77); (103, 46); (104, 77); (105, 46); (118, 19); (119, 23); (120, 23); (121, 76); (122, 76); (168, 20);
   (169, 19); (170, 23); (171, 76); (172, 77); (173, 46); (174, 47); (175, 51); (176, 20); (177, 19); (178, 23);
   (179, 76); (180, 77); (181, 46); (182, 47)]%N.

(** The state that stands for [q]. *)
Definition stands_for (ty : newtype) (q : N) : N :=
  match ty with LangTagT => match at_state q merged with Some p => p | None => q end | _ => q end.
Definition count (ty : newtype) : nat :=
  match ty with
  | LangTagT => 183 | PrivateUseT => 11 | PrivateUseSubtagT => 9 | NormalLangTagT => 72 | LanguageT => 20 | PrimaryLanguageT => 4
  | LanguageExtensionT => 12 | ExtendedLangTagT => 4 | ScriptT => 5 | RegionT => 5 | VariantT => 13 | VariantsT => 14
  | ExtensionT => 11 | ExtensionSubtagT => 9 | ExtensionsT => 13
  end.
Definition kept (ty : newtype) : list N := filter (fun q => (stands_for ty q =? q)%N) (upto (count ty)).

Fixpoint bools_eqb (a b : list bool) : bool :=
  match a, b with [], [] => true | x :: a', y :: b' => Bool.eqb x y && bools_eqb a' b' | _, _ => false end.
Fixpoint differ (l : list (list bool)) : bool :=
  match l with x :: l' => forallb (fun y => negb (bools_eqb x y)) l' && differ l' | [] => true end.
Definition signature (ty : newtype) (q : N) : list bool := map (run (automaton_of ty) q) (pool ty).
Definition needed_check (ty : newtype) : bool :=
  differ (map (signature ty) (kept ty)) &&
  forallb (fun q => entered (automaton_of ty) (the_entries ty) q && left (automaton_of ty) (the_exits ty) q) (kept ty).
Lemma needed_checked ty : needed_check ty = true.
Proof. destruct ty; vm_compute; reflexivity. Qed.

Lemma bools_eqb_refl a : bools_eqb a a = true.
Proof. induction a as [|[] a IH]; cbn; auto. Qed.
Lemma differ_spec l : differ l = true -> forall i j x, nth_error l i = Some x -> nth_error l j = Some x -> i = j.
Proof.
  induction l as [|z l IH]; intros H i j x I J; [destruct i; discriminate|]. cbn [differ] in H. apply andb_prop in H as [H1 H2].
  assert (D : In z l -> False).
  { intros W. pose proof (proj1 (forallb_forall _ _) H1 _ W) as A. cbv beta in A. now rewrite bools_eqb_refl in A. }
  destruct i as [|i], j as [|j]; cbn in I, J.
  - reflexivity.
  - injection I as ->. destruct (D (nth_error_In _ _ J)).
  - injection J as ->. destruct (D (nth_error_In _ _ I)).
  - f_equal. exact (IH H2 i j x I J).
Qed.

Definition way (ty : newtype) (q : N) : bytes := match at_state q (the_entries ty) with Some u => u | None => [] end.
Lemma states_needed_by ty {X} (l : list X) start step acc : In start l -> (forall x b y, In x l -> step x b = Some y -> In y l) ->
  (forall s, reads step acc start s = accepts (automaton_of ty) s) -> length (kept ty) <= length l.
Proof.
  intros S C R. rewrite <- (map_length (way ty) (kept ty)).
  pose proof (needed_checked ty) as K. unfold needed_check in K. apply andb_prop in K as [K1 K2].
  assert (W : forall q, In q (kept ty) -> after (automaton_of ty) 0 (way ty q) = Some q /\ exists v, run (automaton_of ty) q v = true).
  { intros q I. pose proof (proj1 (forallb_forall _ _) K2 _ I) as Y. cbv beta in Y. apply andb_prop in Y as [Y1 Y2].
    split; [|exact (left_by _ _ _ Y2)]. unfold entered in Y1. unfold way. destruct (at_state q (the_entries ty)); [|discriminate].
    now apply is_some_eq. }
  apply (told_apart l start step acc _ (accepts (automaton_of ty)) S C R).
  - intros u I. apply in_map_iff in I as (q & <- & I). destruct (W q I) as (A & v & V). exists v. unfold accepts.
    change initial with 0%N. now rewrite (after_run _ _ _ _ _ A).
  - intros i j u u' I J H.
    destruct (nth_error (kept ty) i) as [q|] eqn:Q.
    2:{ apply nth_error_None in Q. assert (Z : nth_error (map (way ty) (kept ty)) i = None) by (apply nth_error_None; now rewrite map_length).
        congruence. }
    destruct (nth_error (kept ty) j) as [q'|] eqn:Q'.
    2:{ apply nth_error_None in Q'. assert (Z : nth_error (map (way ty) (kept ty)) j = None) by (apply nth_error_None; now rewrite map_length).
        congruence. }
    rewrite (map_nth_error _ _ _ Q) in I. rewrite (map_nth_error _ _ _ Q') in J. injection I as <-. injection J as <-.
    destruct (W q (nth_error_In _ _ Q)) as [A _]. destruct (W q' (nth_error_In _ _ Q')) as [A' _].
    apply (differ_spec _ K1 i j (signature ty q)); [exact (map_nth_error _ _ _ Q)|].
    rewrite (map_nth_error _ _ _ Q'). f_equal. apply map_ext_in. intros v _. specialize (H v). unfold accepts in H.
    change initial with 0%N in H. now rewrite (after_run _ _ _ _ _ A), (after_run _ _ _ _ _ A') in H.
Qed.

(** The machine with the states kept: each step goes to the state that stands for the next. *)
Definition kept_step (ty : newtype) (q : N) (b : byte) : option N := option_map (stands_for ty) (push (automaton_of ty) q (code b)).
Definition kept_check (ty : newtype) : bool :=
  forallb (fun q =>
    forallb (fun c => match push (automaton_of ty) q c with Some p => (p <? N.of_nat (count ty))%N | None => true end) (upto 128) &&
    ((stands_for ty q =? q)%N ||
     ((stands_for ty (stands_for ty q) =? stands_for ty q)%N && (stands_for ty q <? N.of_nat (count ty))%N &&
      Bool.eqb (is_accepting (automaton_of ty) q) (is_accepting (automaton_of ty) (stands_for ty q)) &&
      forallb (fun c => same (option_map (stands_for ty) (push (automaton_of ty) q c))
                             (option_map (stands_for ty) (push (automaton_of ty) (stands_for ty q) c))) (upto 128))))
    (upto (count ty)).
Lemma kept_checked ty : kept_check ty = true.
Proof. destruct ty; vm_compute; reflexivity. Qed.
Lemma upto_below n k : In k (upto n) -> (k < N.of_nat n)%N.
Proof. intros I. apply in_map_iff in I as (i & <- & I). apply in_seq in I. lia. Qed.
Lemma automaton_high ty : high_rejects (automaton_of ty).
Proof. apply all_high. destruct ty; cbn; tauto. Qed.
Lemma kept_spec ty q : (q < N.of_nat (count ty))%N ->
    (forall c p, push (automaton_of ty) q c = Some p -> (p < N.of_nat (count ty))%N) /\
    stands_for ty (stands_for ty q) = stands_for ty q /\ (stands_for ty q < N.of_nat (count ty))%N /\
    is_accepting (automaton_of ty) q = is_accepting (automaton_of ty) (stands_for ty q) /\
    forall c, option_map (stands_for ty) (push (automaton_of ty) q c) = option_map (stands_for ty) (push (automaton_of ty) (stands_for ty q) c).
Proof.
  intros Q. pose proof (proj1 (forallb_forall _ _) (kept_checked ty) q (upto_spec _ _ Q)) as X. cbv beta in X.
  apply andb_prop in X as [X1 X2]. split.
  - intros c p P. destruct (N.ltb_spec c 128) as [L|L].
    + pose proof (proj1 (forallb_forall _ _) X1 c (upto_spec 128 c L)) as Y. cbv beta in Y. rewrite P in Y. now apply N.ltb_lt.
    + rewrite (automaton_high ty q c L) in P. discriminate.
  - apply orb_prop in X2 as [X2|X2].
    + apply N.eqb_eq in X2. rewrite !X2. repeat split; auto.
    + apply andb_prop in X2 as [X2 Y4]. apply andb_prop in X2 as [X2 Y3]. apply andb_prop in X2 as [Y1 Y2].
      apply N.eqb_eq in Y1. apply N.ltb_lt in Y2. apply eqb_prop in Y3. repeat split; auto. intros c.
      destruct (N.ltb_spec c 128) as [L|L].
      * exact (same_eq _ _ (proj1 (forallb_forall _ _) Y4 c (upto_spec 128 c L))).
      * now rewrite !(automaton_high ty _ c L).
Qed.
Lemma kept_reads ty s : forall q, (q < N.of_nat (count ty))%N ->
  reads (kept_step ty) (is_accepting (automaton_of ty)) (stands_for ty q) s = run (automaton_of ty) q s.
Proof.
  induction s as [|b s IH]; intros q Q; cbn; destruct (kept_spec ty q Q) as (K1 & _ & _ & K4 & K5).
  - now symmetry.
  - unfold kept_step at 1. rewrite <- (K5 (code b)). destruct (push (automaton_of ty) q (code b)) as [p|] eqn:P; [|reflexivity].
    cbn. apply IH. exact (K1 _ _ P).
Qed.
Lemma kept_machine ty : In 0%N (kept ty) /\ (forall x b y, In x (kept ty) -> kept_step ty x b = Some y -> In y (kept ty)) /\
  forall s, reads (kept_step ty) (is_accepting (automaton_of ty)) 0%N s = accepts (automaton_of ty) s.
Proof.
  split; [|split].
  - destruct ty; vm_compute; auto.
  - intros x b y I S. apply filter_In in I as [I _]. apply upto_below in I. destruct (kept_spec ty x I) as (K1 & _).
    unfold kept_step in S. destruct (push (automaton_of ty) x (code b)) as [p|] eqn:P; [|discriminate]. injection S as <-.
    destruct (kept_spec ty p (K1 _ _ P)) as (_ & K2 & K3 & _). apply filter_In. split; [now apply upto_spec|]. now apply N.eqb_eq.
  - intros s. pose proof (kept_reads ty s 0%N) as R. replace (stands_for ty 0) with 0%N in R by (destruct ty; reflexivity).
    apply R. destruct ty; reflexivity.
Qed.
