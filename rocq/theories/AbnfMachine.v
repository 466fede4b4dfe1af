(** A generator: from an ABNF text to automata, one for each rule, by partial derivatives.

    It stands for the macro [static_automata::grammar] (not in /repo), which writes the automata of the module [grammar]
    from grammar.abnf when the crate is compiled (/repo/src/lib.rs:46-66).  It is defined for every text, and proved
    right for every text whose rules do not refer to themselves. *)
From Verif Require Import RustSyntax RustProgram RustGenerated.
From Verif Require Import Base Spec RegexEquiv Abnf AbnfEquiv.
Open Scope string_scope.
Open Scope nat_scope.
Open Scope list_scope.

(** * 1. The generator *)

Fixpoint depth (e : elem) : nat :=
  match e with
  | Name _ | Quoted _ | Range _ _ => 1
  | Repeat _ _ e => S (depth e)
  | Sequence a b | Choice a b => S (Nat.max (depth a) (depth b))
  end.
Definition deepest (G : grammar) : nat := fold_right (fun r n => Nat.max (depth (snd r)) n) 0 G.

(** The regular expression of the rule [n], if its expansion ends. *)
Definition compile (G : grammar) (n : bytes) : option re :=
  expand (S (length G) * S (deepest G)) G (Name n).

(** The rule whose automaton is called [a]. *)
Definition rule_called (G : grammar) (a : string) : option bytes :=
  option_map fst (find (fun r => String.eqb (pascal (str (fst r))) a) G).

(** What the automaton [a] written from [text] answers on [s]. *)
Definition written (text : bytes) (a : string) (s : bytes) : bool :=
  match read_abnf text with
  | Some G =>
    match rule_called G a with
    | Some n => match compile (G ++ core_rules) n with Some r => mrun re_machine [r] s | None => false end
    | None => false
    end
  | None => false
  end.

(** * 2. Texts that it can treat *)

Fixpoint names (e : elem) : list bytes :=
  match e with
  | Name n => [n]
  | Quoted _ | Range _ _ => []
  | Repeat _ _ e => names e
  | Sequence a b | Choice a b => names a ++ names b
  end.
(** The rules can be put in layers, each of which refers to lower ones only, and refer to no rule that is missing. *)
Definition layered (G : grammar) : Prop := exists layer : bytes -> nat,
  forall n e, rule G n = Some e -> layer n < length G /\
    forall m, In m (names e) -> layer m < layer n /\ rule G m <> None.

(** * 3. It is right *)

Lemma deepest_rule G n e : rule G n = Some e -> depth e <= deepest G.
Proof.
  unfold deepest. induction G as [|[m x] G IH]; [discriminate|]. cbn [rule fold_right snd].
  destruct (bytes_eqb _ _); intros H; [injection H as <-; lia|]. specialize (IH H). lia.
Qed.

Lemma compile_layered G : layered G -> forall n, rule G n <> None -> exists r, compile G n = Some r.
Proof.
  intros (layer & L). set (D := S (deepest G)).
  assert (E : forall k n, layer n < k -> rule G n <> None -> forall fuel, k * D + 1 <= fuel + 1 -> 1 <= fuel ->
    exists r, expand fuel G (Name n) = Some r).
  { induction k as [|k IH]; [lia|]. intros n K R fuel F F1.
    destruct (rule G n) as [e|] eqn:X; [|now destruct R]. destruct (L n e X) as [_ M].
    pose proof (deepest_rule G n e X) as B.
    destruct fuel as [|fuel]; [lia|]. cbn [expand]. rewrite X.
    assert (W : forall e' f, (forall m, In m (names e') -> layer m < layer n /\ rule G m <> None) ->
      k * D + depth e' <= f -> exists r, expand f G e' = Some r).
    { induction e' as [m|l|lo hi|lo hi e' IHe|a IHa b IHb|a IHa b IHb]; intros f Q H; cbn [depth names] in *.
      - destruct (Q m (or_introl eq_refl)) as [Q1 Q2]. apply IH; [lia|exact Q2|lia|lia].
      - destruct f; [lia|]. eexists; reflexivity.
      - destruct f; [lia|]. eexists; reflexivity.
      - destruct f; [lia|]. cbn [expand]. destruct (IHe f Q ltac:(lia)) as [r ->]. destruct hi as [h|]; [|eexists; reflexivity].
        destruct (h <? lo); eexists; reflexivity.
      - destruct f; [lia|]. cbn [expand].
        destruct (IHa f (fun m I => Q m (in_or_app _ _ _ (or_introl I))) ltac:(lia)) as [x ->].
        destruct (IHb f (fun m I => Q m (in_or_app _ _ _ (or_intror I))) ltac:(lia)) as [y ->]. eexists; reflexivity.
      - destruct f; [lia|]. cbn [expand].
        destruct (IHa f (fun m I => Q m (in_or_app _ _ _ (or_introl I))) ltac:(lia)) as [x ->].
        destruct (IHb f (fun m I => Q m (in_or_app _ _ _ (or_intror I))) ltac:(lia)) as [y ->]. eexists; reflexivity. }
    apply W; [exact M|]. subst D. lia. }
  intros n R. unfold compile. apply (E (length G)); try exact R.
  - destruct (rule G n) as [e|] eqn:X; [apply (L n e X)|now destruct R].
  - subst D. lia.
  - lia.
Qed.

Lemma compile_right G n r : compile G n = Some r -> forall s, mrun re_machine [r] s = true <-> derives G (Name n) s.
Proof.
  intros C s. rewrite re_mrun, (expand_derives _ _ _ _ C s). split.
  - intros (x & [<-|[]] & M). exact M.
  - intros M. exists r. split; [left; reflexivity|exact M].
Qed.

Lemma bs_str s : bs (str s) = s.
Proof. unfold bs, str. apply String.list_byte_of_string_of_list_byte. Qed.

(** The name [a] is taken by the rule [n] (the first one, if several would have it). *)
Definition called (text : bytes) (a : string) (n : string) : Prop :=
  exists G, read_abnf text = Some G /\ rule_called G a = Some (bs n).

Theorem written_right text a n : called text a n ->
  (exists G, read_abnf text = Some G /\ layered (G ++ core_rules)) ->
  forall s, written text a s = true <-> derived_from text n s.
Proof.
  intros (G & E & N) (G' & E' & L) s. rewrite E in E'. injection E' as <-.
  assert (R : rule (G ++ core_rules) (bs n) <> None).
  { unfold rule_called in N. destruct (find _ G) as [[m x]|] eqn:F; [|discriminate]. injection N as N. apply find_some in F as [I _].
    cbn [fst] in N. subst m. clear -I. induction G as [|[m y] G IH]; [destruct I|]. cbn [app rule].
    destruct (bytes_eqb (map lower m) (map lower (bs n))) eqn:B; [discriminate|]. destruct I as [I|I]; [|exact (IH I)].
    injection I as -> ->. exfalso. clear -B. assert (X : forall l, bytes_eqb l l = true).
    { induction l as [|b l IH]; [reflexivity|]. cbn. rewrite IH. unfold beq. now destruct b. }
    rewrite X in B. discriminate. }
  destruct (compile_layered _ L _ R) as [r C]. unfold written, derived_from. rewrite E, N, C, (compile_right _ _ _ C s). split.
  - intros D. exists G. split; [reflexivity|exact D].
  - intros (G' & E' & D). injection E' as <-. exact D.
Qed.

(** * 4. Finding the layers *)

Fixpoint layer_of (fuel : nat) (G : grammar) (n : bytes) : nat :=
  match fuel with
  | O => 0
  | S fuel =>
    match rule G n with
    | Some e => fold_right (fun m k => Nat.max (S (layer_of fuel G m)) k) 0 (names e)
    | None => 0
    end
  end.
Definition layers_found (G : grammar) : bool :=
  let layer := layer_of (length G) G in
  forallb (fun r => (layer (fst r) <? length G) &&
    forallb (fun m => (layer m <? layer (fst r)) && match rule G m with Some _ => true | None => false end) (names (snd r))) G.

Lemma bytes_eqb_eq a : forall b, bytes_eqb a b = true -> a = b.
Proof.
  induction a as [|x a IH]; intros [|y b] H; try discriminate; [reflexivity|]. cbn in H. apply andb_prop in H as [H1 H2].
  f_equal; [|exact (IH _ H2)]. unfold beq in H1. now apply Strings.Byte.byte_dec_bl.
Qed.
Lemma rule_lower G n n' : map lower n = map lower n' -> rule G n = rule G n'.
Proof. intros E. induction G as [|[m e] G IH]; [reflexivity|]. cbn. now rewrite E, IH. Qed.
Lemma rule_in G n e : rule G n = Some e -> exists m, In (m, e) G /\ map lower m = map lower n.
Proof.
  induction G as [|[m x] G IH]; [discriminate|]. cbn. destruct (bytes_eqb _ _) eqn:B; intros H.
  - injection H as <-. exists m. split; [left; reflexivity|exact (bytes_eqb_eq _ _ B)].
  - destruct (IH H) as (m' & I & E). exists m'. split; [right; exact I|exact E].
Qed.
Lemma layers_found_layered G : layers_found G = true -> layered G.
Proof.
  intros H. exists (layer_of (length G) G). intros n e R. destruct (rule_in G n e R) as (m & I & E).
  pose proof (proj1 (forallb_forall _ _) H _ I) as X. cbn [fst snd] in X. apply andb_prop in X as [X1 X2].
  assert (Y : forall k, layer_of k G m = layer_of k G n) by (intros []; cbn; [reflexivity|]; now rewrite (rule_lower G m n E)).
  rewrite <- Y. split; [now apply Nat.ltb_lt|]. intros x J. pose proof (proj1 (forallb_forall _ _) X2 _ J) as Z.
  apply andb_prop in Z as [Z1 Z2]. split; [now apply Nat.ltb_lt|]. destruct (rule G x); discriminate.
Qed.
