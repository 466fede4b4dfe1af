(** Proofs about the containers: cmp, == and hash make them maps up to letter case. *)
From Coq Require Import Sorting.Permutation Sorting.Sorted.
From Verif Require Import Base GrammarRs Validate Utils Newtypes Spec Observe Case Order Containers.

Definition low (k : bytes) : bytes := map lower k.
Lemma text_eqb_spec a b : reflect (a = b) (text_eqb a b).
Proof. unfold text_eqb. destruct (list_eq_dec _ a b); now constructor. Qed.
Lemma text_eqb_refl a : text_eqb a a = true.
Proof. now destruct (text_eqb_spec a a). Qed.

(** * 1. The order *)

Lemma ci_cmp_eq a b : ci_cmp a b = Eq <-> low a = low b.
Proof.
  destruct (cmp_total_order LangTagT) as (_ & E & _). specialize (E a b). rewrite cmp_of_ci, eq_of_true in E.
  unfold same_ci in E. fold (low a) (low b) in E. rewrite <- E. split; congruence.
Qed.
Lemma ci_cmp_opp a b : ci_cmp b a = CompOpp (ci_cmp a b).
Proof.
  destruct (cmp_total_order LangTagT) as (O & _). destruct (O a b) as (c & A & B & _). rewrite cmp_of_ci in A, B. congruence.
Qed.
Lemma ci_cmp_trans a b c : ci_cmp a b = Lt -> ci_cmp b c = Lt -> ci_cmp a c = Lt.
Proof.
  destruct (cmp_total_order LangTagT) as (_ & _ & T & _). specialize (T a b c). rewrite !cmp_of_ci in T.
  intros X Y. rewrite X, Y in T. specialize (T eq_refl eq_refl). congruence.
Qed.
Lemma ci_cmp_low a a' b b' : low a = low a' -> low b = low b' -> ci_cmp a b = ci_cmp a' b'.
Proof.
  destruct (cmp_total_order LangTagT) as (_ & _ & _ & _ & T). specialize (T a a' b b').
  rewrite !eq_of_true, !cmp_of_ci in T. intros X Y. specialize (T X Y). congruence.
Qed.
Lemma ci_cmp_gt a b : ci_cmp a b = Gt <-> ci_cmp b a = Lt.
Proof. rewrite (ci_cmp_opp a b). destruct (ci_cmp a b); split; intros H; try discriminate H; reflexivity. Qed.
Lemma ci_cmp_irrefl a : ci_cmp a a <> Lt.
Proof. intros H. assert (ci_cmp a a = Eq) by now apply ci_cmp_eq. congruence. Qed.
Lemma ci_eqb_low a b : ci_eqb a b = text_eqb (low a) (low b).
Proof.
  destruct (text_eqb_spec (low a) (low b)) as [E|E]; [now apply ci_eqb_spec|now apply ci_eqb_false].
Qed.

(** * 2. The tree *)

Section Tree.
Context {V : Type}.
Variable ty : newtype.
Implicit Types t : tree V.

Fixpoint get t k : option V :=
  match t with
  | Leaf => None
  | Node l k' v r => match ci_cmp k k' with Eq => Some v | Lt => get l k | Gt => get r k end
  end.
Fixpoint ins t k v : tree V :=
  match t with
  | Leaf => Node Leaf k v Leaf
  | Node l k' v' r =>
    match ci_cmp k k' with Eq => Node l k' v r | Lt => Node (ins l k v) k' v' r | Gt => Node l k' v' (ins r k v) end
  end.
Fixpoint rem t k : tree V :=
  match t with
  | Leaf => Leaf
  | Node l k' v' r =>
    match ci_cmp k k' with Eq => tree_join l r | Lt => Node (rem l k) k' v' r | Gt => Node l k' v' (rem r k) end
  end.
Lemma tree_get_pure t k : tree_get ty t k = Ret (get t k).
Proof. induction t as [|l IHl k' v r IHr]; [reflexivity|]. cbn. rewrite cmp_of_ci. cbn. destruct (ci_cmp k k'); auto. Qed.
Lemma tree_insert_pure t k v : tree_insert ty t k v = Ret (ins t k v).
Proof.
  induction t as [|l IHl k' v' r IHr]; [reflexivity|]. cbn. rewrite cmp_of_ci. cbn.
  destruct (ci_cmp k k'); rewrite ?IHl, ?IHr; reflexivity.
Qed.
Lemma tree_remove_pure t k : tree_remove ty t k = Ret (rem t k).
Proof.
  induction t as [|l IHl k' v' r IHr]; [reflexivity|]. cbn. rewrite cmp_of_ci. cbn.
  destruct (ci_cmp k k'); rewrite ?IHl, ?IHr; reflexivity.
Qed.

(** What it holds. *)
Fixpoint sem t (x : bytes) : option V :=
  match t with
  | Leaf => None
  | Node l k v r => if text_eqb (low k) x then Some v else match sem l x with Some w => Some w | None => sem r x end
  end.
Fixpoint all (P : bytes -> Prop) t : Prop :=
  match t with Leaf => True | Node l k _ r => all P l /\ P k /\ all P r end.
Fixpoint bst t : Prop :=
  match t with
  | Leaf => True
  | Node l k _ r => bst l /\ bst r /\ all (fun x => ci_cmp x k = Lt) l /\ all (fun x => ci_cmp k x = Lt) r
  end.
Lemma all_impl (P Q : bytes -> Prop) t : (forall x, P x -> Q x) -> all P t -> all Q t.
Proof. intros I. induction t as [|l IHl k v r IHr]; cbn; [auto|]. intuition. Qed.
Lemma sem_none x t : all (fun k => low k <> x) t -> sem t x = None.
Proof.
  induction t as [|l IHl k v r IHr]; cbn; [reflexivity|]. intros (L & K & R).
  destruct (text_eqb_spec (low k) x); [contradiction|]. now rewrite IHl, IHr.
Qed.
Lemma above t k k' : ci_cmp k k' <> Gt -> all (fun x => ci_cmp k' x = Lt) t -> sem t (low k) = None.
Proof.
  intros C A. apply sem_none. eapply all_impl; [|exact A]. intros x X E. cbn in X.
  assert (ci_cmp k x = Eq) by (now apply ci_cmp_eq).
  destruct (ci_cmp k k') eqn:K; [|rewrite (ci_cmp_trans k k' x) in H by assumption; discriminate|congruence].
  apply ci_cmp_eq in K. rewrite (ci_cmp_low k' k x x) in X by auto. congruence.
Qed.
Lemma below t k k' : ci_cmp k k' <> Lt -> all (fun x => ci_cmp x k' = Lt) t -> sem t (low k) = None.
Proof.
  intros C A. apply sem_none. eapply all_impl; [|exact A]. intros x X E. cbn in X. apply C.
  now rewrite (ci_cmp_low k x k' k').
Qed.

Lemma get_sem t k : bst t -> get t k = sem t (low k).
Proof.
  induction t as [|l IHl k' v r IHr]; [reflexivity|]. cbn [bst get sem]. intros (L & R & AL & AR).
  destruct (text_eqb_spec (low k') (low k)) as [E|E].
  - now rewrite (proj2 (ci_cmp_eq k k')).
  - destruct (ci_cmp k k') eqn:C.
    + apply ci_cmp_eq in C. congruence.
    + rewrite IHl by exact L. rewrite (above r k k'); [now destruct (sem l (low k))|congruence|exact AR].
    + rewrite IHr by exact R. rewrite (below l k k'); [reflexivity|congruence|exact AL].
Qed.
Lemma all_ins (P : bytes -> Prop) t k v : P k -> all P t -> all P (ins t k v).
Proof.
  intros K. induction t as [|l IHl k' v' r IHr]; cbn; [auto|]. intros (L & X & R). destruct (ci_cmp k k'); cbn; auto.
Qed.
Lemma bst_ins t k v : bst t -> bst (ins t k v).
Proof.
  induction t as [|l IHl k' v' r IHr]; cbn [bst ins]; [cbn; auto|]. intros (L & R & AL & AR).
  destruct (ci_cmp k k') eqn:C; cbn [bst]; repeat split; auto.
  - now apply all_ins.
  - apply all_ins; [|exact AR]. now apply ci_cmp_gt.
Qed.
Lemma sem_ins t k v x : bst t -> sem (ins t k v) x = if text_eqb (low k) x then Some v else sem t x.
Proof.
  induction t as [|l IHl k' v' r IHr]; cbn [bst ins sem]; [reflexivity|]. intros (L & R & AL & AR).
  destruct (ci_cmp k k') eqn:C; cbn [sem].
  - apply ci_cmp_eq in C. rewrite <- C. now destruct (text_eqb (low k) x).
  - rewrite IHl by exact L. destruct (text_eqb_spec (low k') x) as [E|E]; [|now destruct (text_eqb (low k) x)].
    destruct (text_eqb_spec (low k) x) as [E'|E']; [|reflexivity].
    exfalso. assert (ci_cmp k k' = Eq) by (apply ci_cmp_eq; congruence). congruence.
  - rewrite IHr by exact R. destruct (text_eqb_spec (low k') x) as [E|E].
    + destruct (text_eqb_spec (low k) x) as [E'|E']; [|reflexivity].
      exfalso. assert (ci_cmp k k' = Eq) by (apply ci_cmp_eq; congruence). congruence.
    + destruct (text_eqb_spec (low k) x) as [E'|E']; [|reflexivity]. subst x.
      now rewrite (below l k k') by (congruence || exact AL).
Qed.
Lemma all_join P l r : all P l -> all P r -> all P (tree_join l r).
Proof. induction l as [|a IHa k v b IHb]; cbn; [auto|]. intuition. Qed.
Lemma sem_join l r x : sem (tree_join l r) x = match sem l x with Some w => Some w | None => sem r x end.
Proof.
  induction l as [|a IHa k v b IHb]; cbn; [reflexivity|]. destruct (text_eqb (low k) x); [reflexivity|].
  rewrite IHb. now destruct (sem a x).
Qed.
Lemma bst_join l r k : bst l -> bst r -> all (fun x => ci_cmp x k = Lt) l -> all (fun x => ci_cmp k x = Lt) r ->
  bst (tree_join l r).
Proof.
  intros L R AL AR. induction l as [|a IHa k' v b IHb]; cbn [tree_join bst]; [exact R|].
  cbn [bst all] in L, AL. destruct L as (La & Lb & Aa & Ab), AL as (Ba & Bk & Bb). repeat split; auto.
  apply all_join; [exact Ab|]. eapply all_impl; [|exact AR]. intros x X. eapply ci_cmp_trans; eassumption.
Qed.
Lemma all_rem (P : bytes -> Prop) t k : all P t -> all P (rem t k).
Proof.
  induction t as [|l IHl k' v' r IHr]; cbn; [auto|]. intros (L & X & R). destruct (ci_cmp k k'); cbn; auto.
  now apply all_join.
Qed.
Lemma bst_rem t k : bst t -> bst (rem t k).
Proof.
  induction t as [|l IHl k' v' r IHr]; cbn [bst rem]; [auto|]. intros (L & R & AL & AR).
  destruct (ci_cmp k k'); cbn [bst]; [now apply (bst_join l r k')|..]; repeat split; auto using all_rem.
Qed.
Lemma sem_rem t k x : bst t -> sem (rem t k) x = if text_eqb (low k) x then None else sem t x.
Proof.
  induction t as [|l IHl k' v' r IHr]; cbn [bst rem sem]; [now destruct (text_eqb (low k) x)|]. intros (L & R & AL & AR).
  destruct (ci_cmp k k') eqn:C; cbn [sem].
  - rewrite sem_join. apply ci_cmp_eq in C. rewrite <- C. destruct (text_eqb_spec (low k) x) as [E|E]; [subst x|reflexivity].
    assert (K : ci_cmp k k' = Eq) by now apply ci_cmp_eq.
    now rewrite (below l k k'), (above r k k') by (congruence || assumption).
  - rewrite IHl by exact L. destruct (text_eqb_spec (low k') x) as [E|E].
    + destruct (text_eqb_spec (low k) x) as [E'|E']; [|reflexivity].
      exfalso. assert (ci_cmp k k' = Eq) by (apply ci_cmp_eq; congruence). congruence.
    + destruct (text_eqb_spec (low k) x) as [E'|E']; [subst x|reflexivity].
      now rewrite (above r k k') by (congruence || assumption).
  - rewrite IHr by exact R. destruct (text_eqb_spec (low k') x) as [E|E].
    + destruct (text_eqb_spec (low k) x) as [E'|E']; [|reflexivity].
      exfalso. assert (ci_cmp k k' = Eq) by (apply ci_cmp_eq; congruence). congruence.
    + destruct (text_eqb_spec (low k) x) as [E'|E']; [subst x|reflexivity].
      now rewrite (below l k k') by (congruence || assumption).
Qed.

Definition step o t := match o with Insert k v => ins t k v | Remove k => rem t k | Get _ => t end.
Lemma bst_step o t : bst t -> bst (step o t).
Proof. destruct o; cbn; auto using bst_ins, bst_rem. Qed.
Lemma sem_step o t x : bst t -> sem (step o t) x = abstract_step o (sem t) x.
Proof. destruct o; cbn; intros B; [now apply sem_ins|now apply sem_rem|reflexivity]. Qed.
Lemma abstract_step_ext (o : map_op V) m m' : (forall x, m x = m' x) -> forall x, abstract_step o m x = abstract_step o m' x.
Proof. intros E x. destruct o; cbn; [now destruct (text_eqb _ _)..|apply E]. Qed.
Lemma abstract_run_ext (ops : list (map_op V)) : forall m m', (forall x, m x = m' x) -> abstract_run ops m = abstract_run ops m'.
Proof.
  induction ops as [|o ops IH]; intros m m' E; [reflexivity|]. cbn. rewrite E. f_equal. apply IH. now apply abstract_step_ext.
Qed.
Lemma abstract_after_ext (ops : list (map_op V)) : forall m m', (forall x, m x = m' x) ->
  forall x, abstract_after ops m x = abstract_after ops m' x.
Proof.
  induction ops as [|o ops IH]; intros m m' E x; cbn; [apply E|]. apply IH. now apply abstract_step_ext.
Qed.

Theorem tree_run_spec ops : forall t, bst t ->
  exists t', tree_run ty ops t = Ret (abstract_run ops (sem t), t') /\ bst t' /\
    forall x, sem t' x = abstract_after ops (sem t) x.
Proof.
  induction ops as [|o ops IH]; intros t B; cbn [tree_run abstract_run abstract_after]; [now exists t|].
  rewrite tree_get_pure. cbn [bind].
  assert (E : tree_step ty o t = Ret (step o t)).
  { destruct o; cbn; auto using tree_insert_pure, tree_remove_pure. }
  rewrite E. cbn [bind]. destruct (IH (step o t) (bst_step o t B)) as (t' & R & B' & S). rewrite R. cbn [bind fst snd].
  exists t'. split; [|split; [exact B'|]].
  - rewrite (abstract_run_ext ops (sem (step o t)) (abstract_step o (sem t))) by (intros x; now apply sem_step).
    now rewrite get_sem.
  - intros x. rewrite S. apply abstract_after_ext. intros y. now apply sem_step.
Qed.

(** Iteration. *)
Lemma all_entries P t : all P t <-> Forall (fun e => P (fst e)) (tree_entries t).
Proof.
  induction t as [|l IHl k v r IHr]; cbn; [split; auto|]. rewrite Forall_app, Forall_cons_iff, IHl, IHr. cbn. tauto.
Qed.
Lemma entries_sorted t : bst t -> StronglySorted (fun a b => ci_cmp (fst a) (fst b) = Lt) (tree_entries t).
Proof.
  induction t as [|l IHl k v r IHr]; cbn [bst tree_entries]; [constructor|]. intros (L & R & AL & AR).
  specialize (IHl L). specialize (IHr R). apply all_entries in AL, AR.
  induction IHl as [|e es S IH F]; cbn.
  - constructor; [exact IHr|exact AR].
  - apply Forall_cons_iff in AL as [A1 A2]. constructor; [now apply IH|]. apply Forall_app. split; [exact F|].
    constructor; [exact A1|]. eapply Forall_impl; [|exact AR]. intros x X. cbn in *. eapply ci_cmp_trans; eassumption.
Qed.
Lemma entries_sem t x v : bst t -> (exists k, In (k, v) (tree_entries t) /\ low k = x) <-> sem t x = Some v.
Proof.
  induction t as [|l IHl k' w r IHr]; cbn [bst tree_entries sem].
  - intros _. split; [now intros (k & [] & _)|discriminate].
  - intros (L & R & AL & AR). destruct (text_eqb_spec (low k') x) as [E|E]; [subst x|].
    + split.
      * intros (k & I & K). apply in_app_or in I as [I|[[= <- <-]|I]]; [|reflexivity|].
        -- apply all_entries in AL. apply (proj1 (Forall_forall _ _) AL) in I. cbn in I.
           assert (ci_cmp k k' = Eq) by now apply ci_cmp_eq. congruence.
        -- apply all_entries in AR. apply (proj1 (Forall_forall _ _) AR) in I. cbn in I.
           assert (ci_cmp k' k = Eq) by now apply ci_cmp_eq. congruence.
      * intros [= <-]. exists k'. split; [|reflexivity]. apply in_or_app. right. now left.
    + assert (D : (exists k, In (k, v) (tree_entries l ++ (k', w) :: tree_entries r) /\ low k = x) <->
        (exists k, In (k, v) (tree_entries l) /\ low k = x) \/ (exists k, In (k, v) (tree_entries r) /\ low k = x)).
      { split.
        - intros (k & I & K). apply in_app_or in I as [I|[[= <- <-]|I]]; [left|contradiction|right]; now exists k.
        - intros [(k & I & K)|(k & I & K)]; exists k; (split; [|exact K]); apply in_or_app; [now left|right; now right]. }
      rewrite D, IHl, IHr by assumption. destruct (sem l x) as [u|] eqn:S.
      * split; [|now left]. intros [H|H]; [exact H|]. exfalso.
        assert (X : exists k, In (k, u) (tree_entries l) /\ low k = x).
        { clear - S L. revert S. induction l as [|a IHa k w' b IHb]; cbn; [discriminate|].
          destruct (text_eqb_spec (low k) x) as [E|E]; [subst x|].
          - intros [= <-]. exists k. split; [apply in_or_app; right; now left|reflexivity].
          - cbn in L. destruct L as (La & Lb & _). destruct (sem a x) as [w''|] eqn:A.
            + intros [= ->]. destruct (IHa La eq_refl) as (k'' & I & K). exists k''. split; [apply in_or_app; now left|exact K].
            + intros B. destruct (IHb Lb B) as (k'' & I & K). exists k''. split; [apply in_or_app; right; now right|exact K]. }
        destruct X as (k & I & <-). apply all_entries in AL. apply (proj1 (Forall_forall _ _) AL) in I. cbn in I.
        rewrite (above r k k') in H by (congruence || assumption). discriminate.
      * split; [intros [[=]|H]; exact H|now right].
Qed.
End Tree.

(** * 3. The table *)

Lemma low_low k : low (low k) = low k.
Proof. unfold low. rewrite map_map. apply map_ext. exact lower_lower. Qed.

Fixpoint lookup {V} (l : list (bytes * V)) (x : bytes) : option V :=
  match l with [] => None | (k, v) :: l' => if text_eqb (low k) x then Some v else lookup l' x end.
Definition key_low {V} (e : bytes * V) : bytes := low (fst e).
Lemma lookup_none {V} (l : list (bytes * V)) x : ~ In x (map key_low l) -> lookup l x = None.
Proof.
  induction l as [|[k v] l IH]; cbn; [reflexivity|]. intros H. destruct (text_eqb_spec (low k) x) as [E|E]; [|now apply IH; auto].
  exfalso. apply H. now left.
Qed.
Lemma lookup_in {V} (l : list (bytes * V)) x v : lookup l x = Some v -> exists k, In (k, v) l /\ low k = x.
Proof.
  induction l as [|[k w] l IH]; cbn; [discriminate|]. destruct (text_eqb_spec (low k) x) as [E|E].
  - intros [= <-]. exists k. auto.
  - intros H. destruct (IH H) as (k' & I & K). exists k'. auto.
Qed.
Lemma lookup_app {V} (l m : list (bytes * V)) x : lookup (l ++ m) x = match lookup l x with Some v => Some v | None => lookup m x end.
Proof. induction l as [|[k v] l IH]; cbn; [reflexivity|]. now destruct (text_eqb (low k) x). Qed.
Lemma lookup_once {V} (l : list (bytes * V)) k v : NoDup (map key_low l) -> In (k, v) l -> lookup l (low k) = Some v.
Proof.
  induction l as [|[k' v'] l IH]; cbn; [easy|]. intros N [[= <- <-]|I].
  - now rewrite text_eqb_refl.
  - apply NoDup_cons_iff in N as [N1 N2]. destruct (text_eqb_spec (low k') (low k)) as [E|E]; [|now apply IH].
    exfalso. apply N1. apply in_map_iff. exists (k, v). split; [exact (eq_sym E)|exact I].
Qed.

Section Hash.
Context {V : Type}.
Variable ty : newtype.
Variable H : hasher.
Variable finish : hstate H -> nat.
Variable st0 : hstate H.
Notation bucket := (bucket ty H finish st0).
Notation table_get := (table_get ty H finish st0).
Notation table_insert := (table_insert ty H finish st0).
Notation table_remove := (table_remove ty H finish st0).
Notation table_insert_all := (table_insert_all ty H finish st0).
Implicit Types t : table V.

Definition idx (n : nat) (x : bytes) : nat := finish (fold_left (write_u8 H) x st0) mod n.
Lemma bucket_idx n k : bucket n k = idx n (low k).
Proof. unfold Containers.bucket, idx. now rewrite hash_of_ci. Qed.

Fixpoint b_ins (l : list (bytes * V)) k v : list (bytes * V) :=
  match l with
  | [] => [(k, v)]
  | (k', v') :: l' => if text_eqb (low k') (low k) then (k', v) :: l' else (k', v') :: b_ins l' k v
  end.
Fixpoint b_rem (l : list (bytes * V)) k : list (bytes * V) :=
  match l with
  | [] => []
  | (k', v') :: l' => if text_eqb (low k') (low k) then l' else (k', v') :: b_rem l' k
  end.
Lemma text_eqb_sym a b : text_eqb a b = text_eqb b a.
Proof. destruct (text_eqb_spec a b), (text_eqb_spec b a); congruence. Qed.
Lemma bucket_get_pure l k : bucket_get ty l k = Ret (@lookup V l (low k)).
Proof.
  induction l as [|[k' v] l IH]; [reflexivity|]. cbn. rewrite eq_of_ci. cbn. rewrite ci_eqb_low, text_eqb_sym.
  now destruct (text_eqb (low k') (low k)).
Qed.
Lemma bucket_insert_pure l k v : bucket_insert ty l k v = Ret (b_ins l k v).
Proof.
  induction l as [|[k' v'] l IH]; [reflexivity|]. cbn. rewrite eq_of_ci. cbn. rewrite ci_eqb_low, text_eqb_sym.
  destruct (text_eqb (low k') (low k)); [reflexivity|]. now rewrite IH.
Qed.
Lemma bucket_remove_pure l k : bucket_remove ty l k = Ret (b_rem l k).
Proof.
  induction l as [|[k' v'] l IH]; [reflexivity|]. cbn. rewrite eq_of_ci. cbn. rewrite ci_eqb_low, text_eqb_sym.
  destruct (text_eqb (low k') (low k)); [reflexivity|]. now rewrite IH.
Qed.
Lemma lookup_ins l k v x : lookup (b_ins l k v) x = if text_eqb (low k) x then Some v else lookup l x.
Proof.
  induction l as [|[k' v'] l IH]; [reflexivity|]. cbn. destruct (text_eqb_spec (low k') (low k)) as [E|E]; cbn.
  - rewrite E. now destruct (text_eqb (low k) x).
  - rewrite IH. destruct (text_eqb_spec (low k') x) as [X|X]; [|reflexivity].
    destruct (text_eqb_spec (low k) x); [congruence|reflexivity].
Qed.
Lemma keys_ins l k v y : In y (map key_low (b_ins l k v)) -> y = low k \/ In y (map key_low l).
Proof.
  induction l as [|[k' v'] l IH]; cbn; [intros [<-|[]]; auto|]. destruct (text_eqb _ _); cbn; [auto|].
  intros [<-|I]; [auto|]. destruct (IH I); auto.
Qed.
Lemma nodup_ins l k v : NoDup (map key_low l) -> NoDup (map key_low (b_ins l k v)).
Proof.
  induction l as [|[k' v'] l IH]; cbn; [intros _; constructor; [easy|constructor]|]. intros N.
  destruct (text_eqb_spec (low k') (low k)) as [E|E]; cbn; [exact N|].
  apply NoDup_cons_iff in N as [N1 N2]. constructor; [|now apply IH]. intros I. apply keys_ins in I as [I|I]; [|contradiction].
  exact (E I).
Qed.
Lemma keys_rem l k y : In y (map key_low (b_rem l k)) -> In y (map key_low l).
Proof.
  induction l as [|[k' v'] l IH]; cbn; [easy|]. destruct (text_eqb _ _); cbn; [auto|]. intros [<-|I]; auto.
Qed.
Lemma nodup_rem l k : NoDup (map key_low l) -> NoDup (map key_low (b_rem l k)).
Proof.
  induction l as [|[k' v'] l IH]; cbn; [auto|]. intros N. apply NoDup_cons_iff in N as [N1 N2].
  destruct (text_eqb _ _); [exact N2|]. cbn. constructor; [|now apply IH]. intros I. now apply keys_rem in I.
Qed.
Lemma lookup_rem l k x : NoDup (map key_low l) -> lookup (b_rem l k) x = if text_eqb (low k) x then None else lookup l x.
Proof.
  induction l as [|[k' v'] l IH]; cbn; [now destruct (text_eqb (low k) x)|]. intros N. apply NoDup_cons_iff in N as [N1 N2].
  destruct (text_eqb_spec (low k') (low k)) as [E|E]; cbn.
  - rewrite E. destruct (text_eqb_spec (low k) x) as [X|X]; [subst x|reflexivity].
    apply lookup_none. rewrite <- E. exact N1.
  - rewrite IH by exact N2. destruct (text_eqb_spec (low k') x) as [X|X]; [|reflexivity].
    destruct (text_eqb_spec (low k) x); [congruence|reflexivity].
Qed.

Definition wf t : Prop := forall i, NoDup (map key_low (t_buckets t i)) /\
  Forall (fun e => idx (t_size t) (key_low e) = i) (t_buckets t i).
Definition t_sem t (x : bytes) : option V := lookup (t_buckets t (idx (t_size t) x)) x.

Lemma keys_of (P : bytes -> Prop) (l : list (bytes * V)) :
  Forall (fun e => P (key_low e)) l <-> forall x, In x (map key_low l) -> P x.
Proof.
  rewrite Forall_forall. split.
  - intros F x I. apply in_map_iff in I as (e & <- & I). now apply F.
  - intros F e I. apply F. now apply in_map.
Qed.

Lemma get_table t k : table_get t k = Ret (t_sem t (low k)).
Proof. unfold Containers.table_get, t_sem. now rewrite bucket_idx, bucket_get_pure. Qed.
Lemma insert_table t k v : wf t -> exists t', table_insert t k v = Ret t' /\ wf t' /\ t_size t' = t_size t /\
  forall x, t_sem t' x = if text_eqb (low k) x then Some v else t_sem t x.
Proof.
  intros W. unfold Containers.table_insert. rewrite bucket_idx, bucket_insert_pure. cbn [bind]. eexists. split; [reflexivity|].
  split; [|split; [reflexivity|]].
  - intros i. cbn [set_bucket t_size t_buckets]. destruct (Nat.eqb_spec i (idx (t_size t) (low k))) as [E|E]; [|apply W].
    destruct (W i) as [N F]. subst i. split; [now apply nodup_ins|].
    apply (keys_of (fun x => idx (t_size t) x = idx (t_size t) (low k))). intros x I. apply keys_ins in I as [->|I]; [reflexivity|].
    exact (proj1 (keys_of (fun x => idx (t_size t) x = idx (t_size t) (low k)) _) F x I).
  - intros x. unfold t_sem. cbn [set_bucket t_size t_buckets].
    destruct (Nat.eqb_spec (idx (t_size t) x) (idx (t_size t) (low k))) as [E|E].
    + rewrite lookup_ins, E. reflexivity.
    + destruct (text_eqb_spec (low k) x); [congruence|reflexivity].
Qed.
Lemma remove_table t k : wf t -> exists t', table_remove t k = Ret t' /\ wf t' /\ t_size t' = t_size t /\
  forall x, t_sem t' x = if text_eqb (low k) x then None else t_sem t x.
Proof.
  intros W. unfold Containers.table_remove. rewrite bucket_idx, bucket_remove_pure. cbn [bind]. eexists. split; [reflexivity|].
  split; [|split; [reflexivity|]].
  - intros i. cbn [set_bucket t_size t_buckets]. destruct (Nat.eqb_spec i (idx (t_size t) (low k))) as [E|E]; [|apply W].
    destruct (W i) as [N F]. subst i. split; [now apply nodup_rem|].
    apply (keys_of (fun x => idx (t_size t) x = idx (t_size t) (low k))). intros x I. apply keys_rem in I.
    exact (proj1 (keys_of (fun x => idx (t_size t) x = idx (t_size t) (low k)) _) F x I).
  - intros x. unfold t_sem. cbn [set_bucket t_size t_buckets].
    destruct (Nat.eqb_spec (idx (t_size t) x) (idx (t_size t) (low k))) as [E|E].
    + rewrite lookup_rem, E by apply W. reflexivity.
    + destruct (text_eqb_spec (low k) x); [congruence|reflexivity].
Qed.
Lemma insert_all_table l : forall t, wf t -> NoDup (map key_low l) -> exists t', table_insert_all l t = Ret t' /\ wf t' /\
  t_size t' = t_size t /\ forall x, t_sem t' x = match lookup l x with Some v => Some v | None => t_sem t x end.
Proof.
  induction l as [|[k v] l IH]; intros t W N; cbn [Containers.table_insert_all]; [now exists t|].
  cbn [map] in N. apply NoDup_cons_iff in N as [N1 N2].
  destruct (insert_table t k v W) as (t1 & -> & W1 & S1 & L1). cbn [bind].
  destruct (IH t1 W1 N2) as (t2 & -> & W2 & S2 & L2). exists t2. split; [reflexivity|]. split; [exact W2|].
  split; [congruence|]. intros x. rewrite L2. cbn [lookup]. destruct (text_eqb_spec (low k) x) as [E|E].
  - subst x. rewrite lookup_none by exact N1. now rewrite L1, text_eqb_refl.
  - destruct (lookup l x); [reflexivity|]. rewrite L1. destruct (text_eqb_spec (low k) x); [contradiction|reflexivity].
Qed.

(** All entries of the buckets in [is]. *)
Lemma entries_keys t is x : wf t -> In x (map key_low (flat_map (t_buckets t) is)) -> In (idx (t_size t) x) is.
Proof.
  intros W. rewrite in_map_iff. intros (e & <- & I). apply in_flat_map in I as (i & I & E).
  destruct (W i) as [_ F]. now rewrite (proj1 (Forall_forall _ _) F e E).
Qed.
Lemma entries_nodup t is : wf t -> NoDup is -> NoDup (map key_low (flat_map (t_buckets t) is)).
Proof.
  intros W. induction is as [|i is IH]; cbn; [constructor|]. intros N. apply NoDup_cons_iff in N as [N1 N2].
  rewrite map_app. specialize (IH N2). destruct (W i) as [B F]. revert B F. generalize (t_buckets t i). intros b B F.
  induction b as [|e b IHb]; [exact IH|]. cbn in *. apply NoDup_cons_iff in B as [B1 B2]. apply Forall_cons_iff in F as [F1 F2].
  constructor; [|now apply IHb]. intros I. apply in_app_or in I as [I|I]; [contradiction|].
  apply (entries_keys t is _ W) in I. rewrite F1 in I. contradiction.
Qed.
Lemma entries_lookup t is x : wf t -> NoDup is -> In (idx (t_size t) x) is -> lookup (flat_map (t_buckets t) is) x = t_sem t x.
Proof.
  intros W. induction is as [|i is IH]; cbn; [easy|]. intros N I. apply NoDup_cons_iff in N as [N1 N2].
  rewrite lookup_app. destruct I as [->|I].
  - fold (t_sem t x). destruct (t_sem t x); [reflexivity|]. apply lookup_none. intros K. now apply (entries_keys t is x W) in K.
  - rewrite lookup_none; [now apply IH|]. intros K.
    destruct (W i) as [_ F]. pose proof (proj1 (keys_of (fun y => idx (t_size t) y = i) _) F x K) as X. cbn in X. congruence.
Qed.
Lemma idx_lt n x : idx (S n) x < S n.
Proof. unfold idx. apply Nat.mod_upper_bound. lia. Qed.

Definition wfs t : Prop := wf t /\ exists n, t_size t = S n.
Lemma empty_wf n : wf (Table n (fun _ => [])).
Proof. intros i. split; constructor. Qed.
Lemma resize_table n t : wfs t -> exists t', table_resize ty H finish st0 (S n) t = Ret t' /\ wfs t' /\
  forall x, t_sem t' x = t_sem t x.
Proof.
  intros [W (m & M)]. unfold table_resize.
  destruct (insert_all_table (table_entries t) (Table (S n) (fun _ => [])) (empty_wf _)
    (entries_nodup t _ W (seq_NoDup _ _))) as (t' & -> & W' & S' & L). exists t'. split; [reflexivity|].
  split; [split; [exact W'|now exists n]|]. intros x. rewrite L. unfold table_entries.
  rewrite entries_lookup; [|exact W|apply seq_NoDup|apply in_seq; rewrite M; pose proof (idx_lt m x); lia].
  now destruct (t_sem t x).
Qed.

Theorem table_run_spec ops : forall t, wfs t -> exists t',
  table_run ty H finish st0 ops t = Ret (abstract_run (map snd ops) (t_sem t), t') /\ wfs t' /\
  forall x, t_sem t' x = abstract_after (map snd ops) (t_sem t) x.
Proof.
  induction ops as [|[g o] ops IH]; intros t W; cbn [table_run map snd abstract_run abstract_after]; [now exists t|].
  assert (G : exists t1, match g with Some n => table_resize ty H finish st0 (S n) t | None => Ret t end = Ret t1 /\ wfs t1 /\
    forall x, t_sem t1 x = t_sem t x).
  { destruct g as [n|]; [now apply resize_table|now exists t]. }
  destruct G as (t1 & -> & W1 & L1). cbn [bind]. rewrite get_table. cbn [bind].
  assert (S : exists t2, table_step ty H finish st0 o t1 = Ret t2 /\ wfs t2 /\
    forall x, t_sem t2 x = abstract_step o (t_sem t1) x).
  { destruct W1 as [W1 (m & M)]. destruct o as [k v|k|k]; cbn.
    - destruct (insert_table t1 k v W1) as (t2 & E & W2 & S2 & L2). exists t2. split; [exact E|].
      split; [split; [exact W2|exists m; congruence]|exact L2].
    - destruct (remove_table t1 k W1) as (t2 & E & W2 & S2 & L2). exists t2. split; [exact E|].
      split; [split; [exact W2|exists m; congruence]|exact L2].
    - exists t1. split; [reflexivity|]. split; [split; [exact W1|now exists m]|reflexivity]. }
  destruct S as (t2 & -> & W2 & L2). cbn [bind].
  destruct (IH t2 W2) as (t' & -> & W' & L'). cbn [bind fst snd]. exists t'.
  assert (E : forall x, t_sem t2 x = abstract_step o (t_sem t) x).
  { intros x. rewrite L2. now apply abstract_step_ext. }
  split; [|split; [exact W'|]].
  - now rewrite L1, (abstract_run_ext _ _ _ E).
  - intros x. rewrite L'. now apply abstract_after_ext.
Qed.
Lemma t_sem_entries t x v : wfs t -> (exists k, In (k, v) (table_entries t) /\ low k = x) <-> t_sem t x = Some v.
Proof.
  intros [W (m & M)].
  assert (N : NoDup (map key_low (table_entries t))) by (apply entries_nodup; [exact W|apply seq_NoDup]).
  assert (L : lookup (table_entries t) x = t_sem t x).
  { apply entries_lookup; [exact W|apply seq_NoDup|apply in_seq; rewrite M; pose proof (idx_lt m x); lia]. }
  rewrite <- L. split; [|apply lookup_in]. intros (k & I & <-). now apply lookup_once.
Qed.
Lemma t_nodup t : wfs t -> NoDup (map key_low (table_entries t)).
Proof. intros [W _]. apply entries_nodup; [exact W|apply seq_NoDup]. Qed.
End Hash.

(** * 4. Sorting and searching *)

Definition le (a b : bytes) : Prop := ci_cmp a b <> Gt.
Lemma le_trans a b c : le a b -> le b c -> le a c.
Proof.
  unfold le. intros X Y Z. destruct (ci_cmp a b) eqn:A; [| |congruence].
  - apply ci_cmp_eq in A. rewrite (ci_cmp_low a b c c) in Z by auto. congruence.
  - destruct (ci_cmp b c) eqn:B; [| |congruence].
    + apply ci_cmp_eq in B. rewrite (ci_cmp_low a a c b) in Z by auto. congruence.
    + rewrite (ci_cmp_trans a b c) in Z by assumption. discriminate.
Qed.
Lemma le_antisym a b : le a b -> le b a -> low a = low b.
Proof.
  unfold le. intros A B. apply ci_cmp_eq. rewrite (ci_cmp_opp b a) in A |- *. destruct (ci_cmp b a); cbn in *; congruence.
Qed.
Lemma le_total a b : ci_cmp a b = Gt -> le b a.
Proof. unfold le. rewrite (ci_cmp_opp a b). intros ->. discriminate. Qed.

Lemma sorted_by_strong ty l : sorted_by ty l <-> StronglySorted le l.
Proof.
  split.
  - induction l as [|x l IH]; intros S; constructor.
    + apply IH. intros i j a b L A B. apply (S (Datatypes.S i) (Datatypes.S j) a b); [lia|exact A|exact B].
    + apply Forall_forall. intros y Y. apply In_nth_error in Y as (j & Y). specialize (S 0 (Datatypes.S j) x y ltac:(lia) eq_refl Y).
      rewrite cmp_of_ci in S. intros E. apply S. now rewrite E.
  - intros S. induction S as [|x l S IH F]; intros i j a b L A B; [now destruct i|].
    destruct j as [|j]; [lia|]. cbn in B. destruct i as [|i].
    + injection A as <-. rewrite cmp_of_ci. apply nth_error_In in B. apply (proj1 (Forall_forall _ _) F) in B. intros [= E]. now apply B.
    + apply (IH i j a b); [lia|exact A|exact B].
Qed.
Lemma insert_sorted_spec ty x l : exists r, insert_sorted ty x l = Ret r /\ Permutation (x :: l) r /\
  (StronglySorted le l -> StronglySorted le r).
Proof.
  induction l as [|y l (r & R & P & S)]; cbn [insert_sorted].
  - exists [x]. split; [reflexivity|]. split; [apply Permutation_refl|]. intros _. constructor; constructor.
  - rewrite cmp_of_ci. cbn [bind]. destruct (ci_cmp x y) eqn:C.
    1,2: exists (x :: y :: l); split; [reflexivity|]; split; [apply Permutation_refl|];
      intros S'; constructor; [exact S'|]; apply StronglySorted_inv in S' as [S1 S2];
      assert (XY : le x y) by (unfold le; congruence); constructor; [exact XY|];
      eapply Forall_impl; [|exact S2]; intros z Z; now apply (le_trans x y z).
    rewrite R. cbn [bind]. exists (y :: r). split; [reflexivity|]. split.
    + rewrite perm_swap. now constructor.
    + intros S'. apply StronglySorted_inv in S' as [S1 S2]. constructor; [now apply S|].
      apply (Permutation_Forall P). constructor; [now apply le_total|exact S2].
Qed.
Lemma sort_spec ty l : exists r, sort ty l = Ret r /\ Permutation l r /\ sorted_by ty r.
Proof.
  induction l as [|x l (r & R & P & S)]; cbn [sort].
  - exists []. split; [reflexivity|]. split; [constructor|]. intros i j a b _ A. now destruct i.
  - rewrite R. cbn [bind]. destruct (insert_sorted_spec ty x r) as (r' & R' & P' & S'). exists r'. split; [exact R'|].
    split; [rewrite <- P'; now constructor|]. apply sorted_by_strong, S'. now apply sorted_by_strong in S.
Qed.
Lemma map_perm_in {A B} (f : A -> B) l l' x : Permutation (map f l) (map f l') -> In x l -> exists y, In y l' /\ f y = f x.
Proof.
  intros P I. apply (in_map f) in I. apply (Permutation_in _ P) in I. apply in_map_iff in I as (y & E & I). now exists y.
Qed.
Lemma sorted_unique ty l l' : sorted_by ty l -> sorted_by ty l' -> Permutation (map low l) (map low l') -> map low l = map low l'.
Proof.
  intros S S'. apply sorted_by_strong in S, S'. revert l' S'. induction S as [|x l S IH F]; intros l' S' P.
  - cbn in P. apply Permutation_nil in P. now rewrite P.
  - destruct l' as [|y l']; [apply Permutation_sym, Permutation_nil in P; discriminate P|].
    apply StronglySorted_inv in S' as [S' F'].
    assert (E : low x = low y).
    { apply le_antisym.
      - destruct (map_perm_in low _ _ y (Permutation_sym P) (or_introl eq_refl)) as (z & [Z|Z] & E).
        + subst z. unfold le. rewrite (proj2 (ci_cmp_eq x y) E). discriminate.
        + apply (proj1 (Forall_forall _ _) F) in Z. unfold le in *. now rewrite (ci_cmp_low x x y z) by auto.
      - destruct (map_perm_in low _ _ x P (or_introl eq_refl)) as (z & [Z|Z] & E).
        + subst z. unfold le. rewrite (proj2 (ci_cmp_eq y x) E). discriminate.
        + apply (proj1 (Forall_forall _ _) F') in Z. unfold le in *. now rewrite (ci_cmp_low y y x z) by auto. }
    cbn [map] in *. rewrite E in *. f_equal. apply IH; [exact S'|]. now apply Permutation_cons_inv in P.
Qed.

Lemma dedup_from_spec ty l : forall x, StronglySorted le (x :: l) -> exists r, dedup_from ty x l = Ret r /\
  StronglySorted (fun a b => ci_cmp a b = Lt) r /\ (forall y, In y (map low r) <-> In y (map low (x :: l))) /\
  incl r (x :: l).
Proof.
  induction l as [|y l IH]; intros x S; cbn [dedup_from].
  - exists [x]. split; [reflexivity|]. split; [constructor; constructor|]. split; [easy|apply incl_refl].
  - rewrite eq_of_ci. cbn [bind]. rewrite ci_eqb_low. apply StronglySorted_inv in S as [S F]. apply Forall_cons_iff in F as [XY F].
    destruct (text_eqb_spec (low y) (low x)) as [E|E].
    + destruct (IH x) as (r & R & O & I & C).
      { constructor; [now apply StronglySorted_inv in S|exact F]. }
      exists r. split; [exact R|]. split; [exact O|]. split.
      * intros z. rewrite I. cbn. rewrite E. tauto.
      * intros z Z. apply C in Z as [->|Z]; [now left|right; now right].
    + destruct (IH y S) as (r & R & O & I & C). rewrite R. cbn [bind]. exists (x :: r). split; [reflexivity|]. split.
      * constructor; [exact O|]. apply Forall_forall. intros z Z. apply C in Z.
        assert (L : ci_cmp x y = Lt).
        { destruct (ci_cmp x y) eqn:K; [|reflexivity|now destruct XY]. apply ci_cmp_eq in K. congruence. }
        destruct Z as [<-|Z]; [exact L|]. apply StronglySorted_inv in S as [_ G]. apply (proj1 (Forall_forall _ _) G) in Z.
        destruct (ci_cmp y z) eqn:K; [|now apply (ci_cmp_trans x y z)|now destruct Z].
        apply ci_cmp_eq in K. now rewrite <- (ci_cmp_low x x y z).
      * split; [|intros z [->|Z]; [now left|right; now apply C]]. intros z. cbn [map]. cbn [In]. rewrite I. reflexivity.
Qed.
Lemma strict_nodup l : StronglySorted (fun a b => ci_cmp a b = Lt) l -> NoDup (map low l).
Proof.
  intros S. induction S as [|x l S IH F]; cbn; constructor; [|exact IH]. intros I. apply in_map_iff in I as (y & E & I).
  apply (proj1 (Forall_forall _ _) F) in I. assert (ci_cmp x y = Eq) by now apply ci_cmp_eq. congruence.
Qed.
Lemma strict_sorted l : StronglySorted (fun a b => ci_cmp a b = Lt) l -> StronglySorted le l.
Proof.
  intros S. induction S as [|x l S IH F]; constructor; [exact IH|]. eapply Forall_impl; [|exact F]. unfold le. cbn. congruence.
Qed.
Lemma dedup_spec ty l : sorted_by ty l -> exists r, dedup ty l = Ret r /\ sorted_by ty r /\ NoDup (map low r) /\ incl r l /\
  forall y, In y (map low r) <-> In y (map low l).
Proof.
  intros S. apply sorted_by_strong in S. destruct l as [|x l]; cbn [dedup].
  - exists []. repeat split; [intros i j a b _ A; now destruct i|constructor|easy|easy|easy].
  - destruct (dedup_from_spec ty l x S) as (r & R & O & I & C). exists r. split; [exact R|].
    split; [apply sorted_by_strong; now apply strict_sorted|]. split; [now apply strict_nodup|]. split; [exact C|exact I].
Qed.

Lemma binary_search_spec ty l x : sorted_by ty l -> forall fuel lo hi, lo <= hi -> hi <= length l -> hi - lo < fuel ->
  (forall i y, i < lo -> nth_error l i = Some y -> ci_cmp y x = Lt) ->
  (forall i y, hi <= i -> nth_error l i = Some y -> ci_cmp y x = Gt) ->
  exists r, binary_search ty fuel l x lo hi = Ret r /\
    match r with
    | Ok i => exists y, nth_error l i = Some y /\ low y = low x
    | Err i => i <= length l /\ (forall j y, j < i -> nth_error l j = Some y -> ci_cmp y x = Lt) /\
               (forall j y, i <= j -> nth_error l j = Some y -> ci_cmp y x = Gt)
    end.
Proof.
  intros S. induction fuel as [|fuel IH]; intros lo hi L1 L2 F A B; [lia|]. cbn [binary_search].
  destruct (Nat.ltb_spec lo hi) as [L|L].
  - pose proof (Nat.div_lt (hi - lo) 2 ltac:(lia) ltac:(lia)) as D. set (mid := lo + (hi - lo) / 2) in *.
    assert (M : lo <= mid < hi) by (unfold mid; lia).
    destruct (nth_error l mid) as [y|] eqn:Y; [|apply nth_error_None in Y; lia].
    rewrite cmp_of_ci. cbn [bind]. destruct (ci_cmp y x) eqn:C.
    + exists (Ok mid). split; [reflexivity|]. exists y. split; [exact Y|]. now apply ci_cmp_eq.
    + apply IH; [lia|lia|lia| |exact B]. intros i z I Z. destruct (Nat.eq_dec i mid) as [->|N]; [congruence|].
      assert (W : le z y).
      { specialize (S i mid z y ltac:(lia) Z Y). rewrite cmp_of_ci in S. intros E. apply S. now rewrite E. }
      unfold le in W. destruct (ci_cmp z y) eqn:K; [|now apply (ci_cmp_trans z y x)|congruence].
      apply ci_cmp_eq in K. now rewrite (ci_cmp_low z y x x).
    + apply IH; [lia|lia|lia|exact A|]. intros i z I Z. destruct (Nat.eq_dec i mid) as [->|N]; [congruence|].
      assert (W : le y z).
      { specialize (S mid i y z ltac:(lia) Y Z). rewrite cmp_of_ci in S. intros E. apply S. now rewrite E. }
      unfold le in W. apply ci_cmp_gt. apply ci_cmp_gt in C. destruct (ci_cmp y z) eqn:K; [|now apply (ci_cmp_trans x y z)|congruence].
      apply ci_cmp_eq in K. now rewrite (ci_cmp_low x x z y).
  - assert (lo = hi) by lia. subst hi. exists (Err lo). split; [reflexivity|]. auto.
Qed.
