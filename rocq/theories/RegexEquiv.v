(** A verified equivalence checker between an automaton and a reference machine, and the
    instance where the reference machine is a regular expression with Antimirov partial derivatives.

    [equiv A r fuel = true] implies that the run of [A] accepts exactly the strings that [r] matches,
    for strings of any length ([equiv_sound]).  *)
From Verif Require Import Base Validate Spec.

(** Run of an automaton over a list of bytes taken as ASCII characters. *)
Fixpoint run (A : automaton) (q : N) (s : bytes) : bool :=
  match s with
  | [] => is_accepting A q
  | b :: s' =>
    match push A q (code b) with
    | Some q' => run A q' s'
    | None => false
    end
  end.

(** * Reference machines *)

Record machine := Machine {
  mst : Type;
  mstep : mst -> N -> mst;
  macc : mst -> bool;
  mdead : mst -> bool;
  meqb : mst -> mst -> bool
}.

Fixpoint mrun (M : machine) (x : mst M) (s : bytes) : bool :=
  match s with
  | [] => macc M x
  | b :: s' => mrun M (mstep M x (code b)) s'
  end.

(** All byte values. *)
Definition all_codes : list N := map N.of_nat (seq 0 256).

Lemma code_in_all b : In (code b) all_codes.
Proof.
  unfold all_codes. apply in_map_iff. exists (N.to_nat (code b)). split; [apply N2Nat.id|].
  apply in_seq. pose proof (Strings.Byte.to_N_bounded b). unfold code. lia.
Qed.

Definition optN_eqb (a b : option N) : bool :=
  match a, b with
  | Some x, Some y => (x =? y)%N
  | None, None => true
  | _, _ => false
  end.

Lemma optN_eqb_eq a b : optN_eqb a b = true -> a = b.
Proof.
  destruct a, b; simpl; try discriminate; auto.
  intros H; apply N.eqb_eq in H; congruence.
Qed.

Section Bisim.
  Variable A : automaton.
  Variable M : machine.
  (** [rep c] is a character that neither the automaton nor the machine distinguishes from [c]. *)
  Variable rep_of : N -> N.
  Variable reps : list N.

  Definition pair := (N * mst M)%type.

  Fixpoint visited (p : pair) (R : list pair) : bool :=
    match R with
    | [] => false
    | x :: R' => if (fst p =? fst x)%N then (meqb M (snd p) (snd x)) || visited p R' else visited p R'
    end.

  Definition add_new (R todo : list pair) (p : pair) (c : N) : list pair * list pair :=
    match push A (fst p) c with
    | Some q' =>
      let p' := (q', mstep M (snd p) c) in
      if visited p' R then (R, todo) else (p' :: R, p' :: todo)
    | None => (R, todo)
    end.

  (** Worklist exploration; its result is only a candidate that [closed] verifies. *)
  Fixpoint explore (fuel : nat) (R todo : list pair) : list pair :=
    match fuel with
    | O => R
    | S fuel' =>
      match todo with
      | [] => R
      | p :: todo' =>
        let st := fold_left (fun st c => add_new (fst st) (snd st) p c) reps (R, todo') in
        explore fuel' (fst st) (snd st)
      end
    end.

  (** [R] is a bisimulation: acceptance agrees and successors stay in [R]. *)
  Definition closed_at (R : list pair) (p : pair) : bool :=
    Bool.eqb (is_accepting A (fst p)) (macc M (snd p)) &&
    forallb (fun c => optN_eqb (push A (fst p) c) (push A (fst p) (rep_of c))) all_codes &&
    forallb (fun c =>
      match push A (fst p) c with
      | Some q' => visited (q', mstep M (snd p) c) R
      | None => mdead M (mstep M (snd p) c)
      end) reps.

  Definition closed (R : list pair) : bool := forallb (closed_at R) R.

  Definition reps_ok : bool :=
    forallb (fun c => existsb (N.eqb (rep_of c)) reps) all_codes.

  (** Invariant of machine states under which [rep_of] is faithful for the machine. *)
  Variable Inv : mst M -> Prop.
  Hypothesis Inv_step : forall x c, Inv x -> Inv (mstep M x c).
  Hypothesis Inv_rep : forall x b, Inv x -> mstep M x (code b) = mstep M x (rep_of (code b)).
  Hypothesis meqb_eq : forall x y, meqb M x y = true -> x = y.
  Hypothesis dead_run : forall s x, mdead M x = true -> mrun M x s = false.

  Lemma visited_In p R : visited p R = true -> In p R.
  Proof.
    induction R as [|y R IH]; simpl; [discriminate|].
    destruct (N.eqb_spec (fst p) (fst y)) as [E|E]; intros H; [|auto].
    apply orb_true_iff in H; destruct H as [H|H]; [|auto].
    left. apply meqb_eq in H. destruct p, y; simpl in *; congruence.
  Qed.

  Theorem closed_sound R :
    reps_ok = true -> closed R = true ->
    forall s q x, In (q, x) R -> Inv x -> run A q s = mrun M x s.
  Proof.
    intros Hreps Hclosed.
    unfold closed in Hclosed. rewrite forallb_forall in Hclosed.
    unfold reps_ok in Hreps. rewrite forallb_forall in Hreps.
    induction s as [|b s IH]; intros q x Hin Hinv; cbn [run mrun].
    - specialize (Hclosed _ Hin). unfold closed_at in Hclosed.
      apply andb_true_iff in Hclosed as [Hc _]. apply andb_true_iff in Hc as [Hc _].
      apply eqb_prop in Hc. exact Hc.
    - pose proof (Hclosed _ Hin) as Hc. unfold closed_at in Hc. cbn [fst snd] in Hc.
      apply andb_true_iff in Hc as [Hc Hsucc]. apply andb_true_iff in Hc as [_ Hpush].
      rewrite forallb_forall in Hpush, Hsucc.
      pose proof (code_in_all b) as Hb.
      specialize (Hpush _ Hb). apply optN_eqb_eq in Hpush.
      specialize (Hreps _ Hb). apply existsb_exists in Hreps as [c [Hc Ec]].
      apply N.eqb_eq in Ec. specialize (Hsucc _ Hc). rewrite <- Ec in Hsucc.
      rewrite (Inv_rep x b Hinv), Hpush.
      destruct (push A q (rep_of (code b))) as [q'|].
      + apply visited_In in Hsucc. apply IH; [exact Hsucc|]. apply Inv_step; exact Hinv.
      + symmetry. apply dead_run. exact Hsucc.
  Qed.

  Definition bisim (fuel : nat) (x : mst M) : bool :=
    let R := explore fuel [(initial, x)] [(initial, x)] in
    visited (initial, x) R && closed R && reps_ok.

  Theorem bisim_sound fuel x :
    bisim fuel x = true -> Inv x -> forall s, run A initial s = mrun M x s.
  Proof.
    unfold bisim. cbv zeta. intros H Hinv s.
    apply andb_true_iff in H as [H Hr]. apply andb_true_iff in H as [Hv Hc].
    apply visited_In in Hv. eapply closed_sound; eassumption.
  Qed.
End Bisim.

(** * Regular expressions as machines *)

Fixpoint nullable (r : re) : bool :=
  match r with
  | Void => false
  | Eps => true
  | Cls _ => false
  | Cat a b => nullable a && nullable b
  | Alt a b => nullable a || nullable b
  | Star _ => true
  end.

Definition cat (a b : re) : re := match a with Eps => b | _ => Cat a b end.

Fixpoint pd (c : N) (r : re) : list re :=
  match r with
  | Void => []
  | Eps => []
  | Cls l => if in_cls l c then [Eps] else []
  | Cat a b =>
    map (fun x => cat x b) (pd c a) ++ (if nullable a then pd c b else [])
  | Alt a b => pd c a ++ pd c b
  | Star a => map (fun x => cat x (Star a)) (pd c a)
  end.

Fixpoint cls_eqb (a b : list (N * N)) : bool :=
  match a, b with
  | [], [] => true
  | (x, y) :: a', (z, t) :: b' => (x =? z)%N && (y =? t)%N && cls_eqb a' b'
  | _, _ => false
  end.

Fixpoint re_eqb (a b : re) : bool :=
  match a, b with
  | Void, Void => true
  | Eps, Eps => true
  | Cls l, Cls m => cls_eqb l m
  | Cat a1 a2, Cat b1 b2 => if re_eqb a1 b1 then re_eqb a2 b2 else false
  | Alt a1 a2, Alt b1 b2 => if re_eqb a1 b1 then re_eqb a2 b2 else false
  | Star a1, Star b1 => re_eqb a1 b1
  | _, _ => false
  end.

Fixpoint res_eqb (a b : list re) : bool :=
  match a, b with
  | [], [] => true
  | x :: a', y :: b' => if re_eqb x y then res_eqb a' b' else false
  | _, _ => false
  end.

Fixpoint mem (r : re) (l : list re) : bool :=
  match l with
  | [] => false
  | x :: l' => if re_eqb r x then true else mem r l'
  end.

Fixpoint dedup (l : list re) : list re :=
  match l with
  | [] => []
  | x :: l' => let d := dedup l' in if mem x d then d else x :: d
  end.

Definition dset (rs : list re) (c : N) : list re := dedup (flat_map (pd c) rs).

Definition re_machine : machine := {|
  mst := list re;
  mstep := dset;
  macc := existsb nullable;
  mdead := fun l => match l with [] => true | _ => false end;
  meqb := res_eqb
|}.

Lemma cls_eqb_eq a : forall b, cls_eqb a b = true -> a = b.
Proof.
  induction a as [|[x y] a IH]; intros [|[z t] b]; simpl; try discriminate; auto.
  intros H. apply andb_true_iff in H as [H H3]. apply andb_true_iff in H as [H1 H2].
  apply N.eqb_eq in H1, H2. apply IH in H3. congruence.
Qed.

Lemma re_eqb_eq a : forall b, re_eqb a b = true -> a = b.
Proof.
  induction a as [| |l|a1 IH1 a2 IH2|a1 IH1 a2 IH2|a1 IH1]; intros b; destruct b; simpl;
    try discriminate; auto; intros H.
  - apply cls_eqb_eq in H; congruence.
  - destruct (re_eqb a1 b1) eqn:E; [|discriminate]. rewrite (IH1 _ E), (IH2 _ H); reflexivity.
  - destruct (re_eqb a1 b1) eqn:E; [|discriminate]. rewrite (IH1 _ E), (IH2 _ H); reflexivity.
  - rewrite (IH1 _ H); reflexivity.
Qed.

Lemma res_eqb_eq a : forall b, res_eqb a b = true -> a = b.
Proof.
  induction a as [|x a IH]; intros [|y b]; simpl; try discriminate; auto.
  destruct (re_eqb x y) eqn:E; [|discriminate]. intros H.
  rewrite (re_eqb_eq _ _ E), (IH _ H); reflexivity.
Qed.

Lemma mem_In r l : mem r l = true -> In r l.
Proof.
  induction l as [|x l IH]; simpl; [discriminate|].
  destruct (re_eqb r x) eqn:E; auto. left; symmetry; apply re_eqb_eq; exact E.
Qed.

Lemma dedup_In r l : In r (dedup l) <-> In r l.
Proof.
  induction l as [|x l IH]; simpl; [tauto|].
  destruct (mem x (dedup l)) eqn:E; simpl; [|tauto].
  apply mem_In in E. split; [tauto|]. intros [->|H]; [exact E|tauto].
Qed.

(** ** Inversion of [matches] *)

Lemma matches_Void s : matches Void s <-> False.
Proof. split; [inversion 1|tauto]. Qed.

Lemma matches_Eps s : matches Eps s <-> s = [].
Proof. split; [inversion 1; auto|intros ->; constructor]. Qed.

Lemma matches_Cls l s : matches (Cls l) s <-> exists b, s = [b] /\ in_cls l (code b) = true.
Proof.
  split; [inversion 1; eauto|]. intros [b [-> H]]; constructor; auto.
Qed.

Lemma matches_Cat a b s : matches (Cat a b) s <-> exists u v, s = u ++ v /\ matches a u /\ matches b v.
Proof.
  split; [inversion 1; subst; eauto 6|]. intros (u & v & -> & H1 & H2); constructor; auto.
Qed.

Lemma matches_Alt a b s : matches (Alt a b) s <-> matches a s \/ matches b s.
Proof.
  split; [inversion 1; subst; auto|]. intros [H|H]; [apply m_alt_l|apply m_alt_r]; auto.
Qed.

Lemma matches_Star_inv a s : matches (Star a) s ->
  s = [] \/ exists b u v, s = (b :: u) ++ v /\ matches a (b :: u) /\ matches (Star a) v.
Proof.
  intros H. remember (Star a) as r eqn:E. revert a E.
  induction H as [| | | | |a|a s t H1 _ H2 IH]; intros a0 E; try discriminate; auto.
  injection E as ->.
  destruct s as [|b s].
  - exact (IH _ eq_refl).
  - right. exists b, s, t. auto.
Qed.

Lemma nullable_spec r : nullable r = true <-> matches r [].
Proof.
  induction r as [| |l|a IHa b IHb|a IHa b IHb|a IHa]; simpl.
  - rewrite matches_Void; split; [discriminate|tauto].
  - rewrite matches_Eps; tauto.
  - rewrite matches_Cls; split; [discriminate|]. intros [b [H _]]; discriminate.
  - rewrite andb_true_iff, IHa, IHb, matches_Cat. split.
    + intros [H1 H2]; exists [], []; auto.
    + intros (u & v & E & H1 & H2). symmetry in E. apply app_eq_nil in E as [-> ->]; auto.
  - rewrite orb_true_iff, IHa, IHb, matches_Alt; tauto.
  - split; [intros _; constructor|auto].
Qed.

Lemma matches_cat a b s : matches (cat a b) s <-> matches (Cat a b) s.
Proof.
  destruct a; simpl; try tauto.
  rewrite matches_Cat. split.
  - intros H; exists [], s; repeat split; auto. constructor.
  - intros (u & v & -> & H1 & H2). apply matches_Eps in H1 as ->. exact H2.
Qed.

Definition any (rs : list re) (s : bytes) : Prop := exists r, In r rs /\ matches r s.

Lemma any_nil s : any [] s <-> False.
Proof. split; [intros [r [[] _]]|tauto]. Qed.

Lemma any_app a b s : any (a ++ b) s <-> any a s \/ any b s.
Proof.
  unfold any. split.
  - intros (r & H & Hm). apply in_app_or in H as [H|H]; eauto.
  - intros [(r & H & Hm)|(r & H & Hm)]; exists r; split; auto; apply in_or_app; auto.
Qed.

Lemma any_map_cat l b s : any (map (fun x => cat x b) l) s <->
  exists u v, s = u ++ v /\ any l u /\ matches b v.
Proof.
  unfold any. split.
  - intros (r & H & Hm). apply in_map_iff in H as (x & <- & Hx).
    apply matches_cat, matches_Cat in Hm as (u & v & -> & H1 & H2). exists u, v; eauto.
  - intros (u & v & -> & (x & Hx & H1) & H2). exists (cat x b). split.
    + apply in_map_iff; eauto.
    + apply matches_cat. constructor; auto.
Qed.

Lemma pd_spec r : forall b s, any (pd (code b) r) s <-> matches r (b :: s).
Proof.
  induction r as [| |l|r1 IH1 r2 IH2|r1 IH1 r2 IH2|r1 IH1]; intros c s; cbn [pd].
  - rewrite any_nil, matches_Void; tauto.
  - rewrite any_nil, matches_Eps; split; [tauto|discriminate].
  - rewrite matches_Cls. destruct (in_cls l (code c)) eqn:E.
    + split.
      * intros (r & [<-|[]] & H). apply matches_Eps in H as ->. exists c; auto.
      * intros (b & H & _). injection H as -> ->. exists Eps; split; [left; auto|constructor].
    + rewrite any_nil. split; [tauto|]. intros (b & H & H'). injection H as -> ->. congruence.
  - rewrite any_app, any_map_cat, matches_Cat. split.
    + intros [(u & v & -> & H1 & H2)|H].
      * exists (c :: u), v. split; [auto|]. split; [apply IH1; auto|auto].
      * destruct (nullable r1) eqn:E; [|apply any_nil in H; tauto].
        apply nullable_spec in E. apply IH2 in H. exists [], (c :: s); auto.
    + intros (u & v & E & H1 & H2). destruct u as [|b u]; simpl in E.
      * right. subst v. apply nullable_spec in H1. rewrite H1. apply IH2; auto.
      * left. injection E as -> ->. exists u, v. split; [auto|]. split; [apply IH1; auto|auto].
  - rewrite any_app, matches_Alt, IH1, IH2; tauto.
  - rewrite any_map_cat. split.
    + intros (u & v & -> & H1 & H2). apply IH1 in H1.
      change (c :: u ++ v) with ((c :: u) ++ v). constructor; auto.
    + intros H. apply matches_Star_inv in H as [H|(b & u & v & E & H1 & H2)]; [discriminate|].
      injection E as -> ->. exists u, v. split; [auto|]. split; [apply IH1; auto|auto].
Qed.

Lemma dset_spec rs b s : any (dset rs (code b)) s <-> any rs (b :: s).
Proof.
  unfold dset, any. split.
  - intros (r & H & Hm). rewrite dedup_In in H. apply in_flat_map in H as (x & Hx & H).
    exists x. split; auto. apply pd_spec. exists r; auto.
  - intros (x & Hx & Hm). apply pd_spec in Hm as (r & Hr & Hm).
    exists r. split; auto. rewrite dedup_In. apply in_flat_map; eauto.
Qed.

Lemma re_mrun s : forall rs, mrun re_machine rs s = true <-> any rs s.
Proof.
  induction s as [|b s IH]; intros rs; cbn [mrun re_machine mstep macc].
  - rewrite existsb_exists. unfold any. split; intros (r & H1 & H2); exists r; split; auto;
      apply nullable_spec; auto.
  - rewrite <- dset_spec. apply IH.
Qed.

(** ** Character representatives for regular expressions *)

Fixpoint all_cls (p : list (N * N) -> bool) (r : re) : bool :=
  match r with
  | Void => true
  | Eps => true
  | Cls l => p l
  | Cat a b => all_cls p a && all_cls p b
  | Alt a b => all_cls p a && all_cls p b
  | Star a => all_cls p a
  end.

Lemma all_cls_cat p a b : all_cls p a = true -> all_cls p b = true -> all_cls p (cat a b) = true.
Proof. destruct a; simpl; intros H1 H2; rewrite ?H1, ?H2; auto. Qed.

Lemma all_cls_pd p r : forall c, all_cls p r = true -> forallb (all_cls p) (pd c r) = true.
Proof.
  induction r as [| |l|r1 IH1 r2 IH2|r1 IH1 r2 IH2|r1 IH1]; intros c H; cbn [pd all_cls] in *; auto.
  - destruct (in_cls l c); auto.
  - apply andb_true_iff in H as [H1 H2]. rewrite forallb_app. apply andb_true_iff. split.
    + specialize (IH1 c H1). rewrite forallb_forall in *. intros x Hx.
      apply in_map_iff in Hx as (y & <- & Hy). apply all_cls_cat; auto.
    + destruct (nullable r1); auto.
  - apply andb_true_iff in H as [H1 H2]. rewrite forallb_app, IH1, IH2; auto.
  - specialize (IH1 c H). rewrite forallb_forall in *. intros x Hx.
    apply in_map_iff in Hx as (y & <- & Hy). apply all_cls_cat; auto.
Qed.

Lemma forallb_dedup p l : forallb p l = true -> forallb p (dedup l) = true.
Proof.
  rewrite !forallb_forall. intros H x Hx. rewrite dedup_In in Hx. auto.
Qed.

Lemma all_cls_dset p rs c : forallb (all_cls p) rs = true -> forallb (all_cls p) (dset rs c) = true.
Proof.
  intros H. unfold dset. apply forallb_dedup. rewrite forallb_forall in *.
  intros x Hx. apply in_flat_map in Hx as (r & Hr & Hx).
  specialize (H _ Hr). pose proof (all_cls_pd p r c H) as H'. rewrite forallb_forall in H'. auto.
Qed.

Definition cls_respects (rep_of : N -> N) (l : list (N * N)) : bool :=
  forallb (fun c => Bool.eqb (in_cls l c) (in_cls l (rep_of c))) all_codes.

Lemma pd_rep rep_of b r :
  all_cls (cls_respects rep_of) r = true -> pd (code b) r = pd (rep_of (code b)) r.
Proof.
  induction r as [| |l|r1 IH1 r2 IH2|r1 IH1 r2 IH2|r1 IH1]; cbn [pd all_cls]; intros H; auto.
  - unfold cls_respects in H. rewrite forallb_forall in H. specialize (H _ (code_in_all b)).
    apply eqb_prop in H. rewrite H; reflexivity.
  - apply andb_true_iff in H as [H1 H2]. rewrite IH1, IH2; auto.
  - apply andb_true_iff in H as [H1 H2]. rewrite IH1, IH2; auto.
  - rewrite IH1; auto.
Qed.

Lemma dset_rep rep_of b rs :
  forallb (all_cls (cls_respects rep_of)) rs = true -> dset rs (code b) = dset rs (rep_of (code b)).
Proof.
  intros H. unfold dset. f_equal. induction rs as [|r rs IH]; simpl in *; auto.
  apply andb_true_iff in H as [H1 H2]. rewrite (pd_rep _ _ _ H1), IH; auto.
Qed.

Definition equiv (A : automaton) (r : re) (rep_of : N -> N) (reps : list N) (fuel : nat) : bool :=
  bisim A re_machine rep_of reps fuel [r] && all_cls (cls_respects rep_of) r.

Theorem equiv_sound A r rep_of reps fuel :
  equiv A r rep_of reps fuel = true -> forall s, run A initial s = true <-> matches r s.
Proof.
  unfold equiv. intros H s. apply andb_true_iff in H as [H Hc].
  pose (Inv := fun rs : mst re_machine => forallb (all_cls (cls_respects rep_of)) rs = true).
  rewrite (bisim_sound A re_machine rep_of reps Inv) with (fuel := fuel) (x := [r]); auto.
  - rewrite re_mrun. unfold any. split; [intros (x & [<-|[]] & Hx); auto|].
    intros Hm; exists r; split; [left; auto|auto].
  - intros x c. apply all_cls_dset.
  - intros x b Hx. apply dset_rep. exact Hx.
  - intros x y. apply res_eqb_eq.
  - intros s' x Hx. destruct x; [|discriminate].
    destruct (mrun re_machine [] s') eqn:E; auto. apply re_mrun, any_nil in E. tauto.
  - unfold Inv. simpl. rewrite Hc. reflexivity.
Qed.

(** The partition used for all productions but [Language-Tag]: digits, A-W, Y-Z, a-w, y-z, x, '-', the rest. *)
Definition rep_of (c : N) : N :=
  (if (48 <=? c) && (c <=? 57) then 48
   else if (c =? 88) || (c =? 120) then 120
   else if (65 <=? c) && (c <=? 87) then 65
   else if (89 <=? c) && (c <=? 90) then 89
   else if (97 <=? c) && (c <=? 119) then 97
   else if (121 <=? c) && (c <=? 122) then 121
   else if c =? 45 then 45
   else 0)%N.
Definition reps : list N := [0; 45; 48; 65; 89; 97; 120; 121]%N.
