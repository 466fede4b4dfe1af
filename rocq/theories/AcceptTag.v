(** The automaton of [LangTag] accepts exactly [Language-Tag]: it is equivalent to the product of the automata
    of [langtag] and [privateuse] and of the 26 grandfathered literals. *)
From Verif Require Import Base GrammarRs Validate Utils Grandfathered Normal LangTag Newtypes Derived Spec
  Observe RegexEquiv Accept Case.

Fixpoint codes_eqb (a b : list N) : bool :=
  match a, b with
  | [], [] => true
  | x :: a', y :: b' => (x =? y)%N && codes_eqb a' b'
  | _, _ => false
  end.

Fixpoint sufs_eqb (a b : list (list N)) : bool :=
  match a, b with
  | [], [] => true
  | x :: a', y :: b' => codes_eqb x y && sufs_eqb a' b'
  | _, _ => false
  end.

(** State: states of [Langtag] and [Privateuse] ([None] when stuck), remaining suffixes of the literals. *)
Record pstate := PState { ps_lang : option N; ps_priv : option N; ps_sufs : list (list N) }.

Definition step_opt (A : automaton) (q : option N) (c : N) : option N :=
  match q with Some q => push A q c | None => None end.
Definition acc_opt (A : automaton) (q : option N) : bool :=
  match q with Some q => is_accepting A q | None => false end.
Definition run_opt (A : automaton) (q : option N) (s : bytes) : bool :=
  match q with Some q => run A q s | None => false end.

Fixpoint step_sufs (c : N) (l : list (list N)) : list (list N) :=
  match l with
  | [] => []
  | (x :: r) :: l' => if (x =? lower_code c)%N then r :: step_sufs c l' else step_sufs c l'
  | [] :: l' => step_sufs c l'
  end.
Definition empty_suf (x : list N) : bool := match x with [] => true | _ => false end.

Definition tag_machine : machine := {|
  mst := pstate;
  mstep := fun p c => PState (step_opt Langtag (ps_lang p) c) (step_opt Privateuse (ps_priv p) c)
                             (step_sufs c (ps_sufs p));
  macc := fun p => acc_opt Langtag (ps_lang p) || acc_opt Privateuse (ps_priv p) ||
                   existsb empty_suf (ps_sufs p);
  mdead := fun p => match p with PState None None [] => true | _ => false end;
  meqb := fun p q => optN_eqb (ps_lang p) (ps_lang q) && optN_eqb (ps_priv p) (ps_priv q) &&
                     sufs_eqb (ps_sufs p) (ps_sufs q)
|}.

Definition lower_codes (s : bytes) : list N := map (fun b => lower_code (code b)) s.

Definition tag_start : pstate :=
  PState (Some initial) (Some initial) (map (fun x => lower_codes (bs x)) (irregular_tags ++ regular_tags)).

Lemma codes_eqb_eq a : forall b, codes_eqb a b = true <-> a = b.
Proof.
  induction a as [|x a IH]; intros [|y b]; simpl; split; try discriminate; auto.
  - intros H. apply andb_true_iff in H as [H1 H2]. apply N.eqb_eq in H1. apply IH in H2. congruence.
  - intros H. injection H as -> ->. rewrite N.eqb_refl. apply IH. reflexivity.
Qed.

Lemma sufs_eqb_eq a : forall b, sufs_eqb a b = true -> a = b.
Proof.
  induction a as [|x a IH]; intros [|y b]; simpl; try discriminate; auto.
  intros H. apply andb_true_iff in H as [H1 H2]. apply codes_eqb_eq in H1. apply IH in H2. congruence.
Qed.

Lemma step_sufs_spec b s l :
  existsb (codes_eqb (lower_codes s)) (step_sufs (code b) l) =
  existsb (codes_eqb (lower_codes (b :: s))) l.
Proof.
  induction l as [|[|x r] l IH]; cbn; auto.
  rewrite (N.eqb_sym (lower_code (code b)) x).
  destruct (x =? lower_code (code b))%N; cbn; rewrite IH; reflexivity.
Qed.

Lemma tag_mrun s : forall p, mrun tag_machine p s =
  run_opt Langtag (ps_lang p) s || run_opt Privateuse (ps_priv p) s ||
  existsb (codes_eqb (lower_codes s)) (ps_sufs p).
Proof.
  induction s as [|b s IH]; intros [q1 q2 l].
  - cbn. destruct q1, q2; cbn; f_equal; induction l as [|[|] l IH]; cbn; auto.
  - cbn [mrun tag_machine mstep ps_lang ps_priv ps_sufs]. rewrite IH.
    cbn [ps_lang ps_priv ps_sufs]. rewrite step_sufs_spec. f_equal. f_equal.
    + destruct q1; reflexivity.
    + destruct q2; reflexivity.
Qed.

Lemma tag_bisim : bisim LanguageTag tag_machine (fun c => c) all_codes 2000 tag_start = true.
Proof. vm_compute. reflexivity. Qed.

Lemma accepts_tag_product s : accepts LanguageTag s =
  accepts Langtag s || accepts Privateuse s ||
  existsb (fun g => codes_eqb (lower_codes s) (lower_codes (bs g))) (irregular_tags ++ regular_tags).
Proof.
  unfold accepts at 1.
  rewrite (bisim_sound LanguageTag tag_machine (fun c => c) all_codes (fun _ => True))
    with (fuel := 2000) (x := tag_start).
  - rewrite tag_mrun. unfold tag_start. cbn [ps_lang ps_priv ps_sufs run_opt]. unfold accepts.
    f_equal.
  - auto.
  - auto.
  - intros x y. cbn. intros H. apply andb_true_iff in H as [H H3]. apply andb_true_iff in H as [H1 H2].
    apply optN_eqb_eq in H1, H2. apply sufs_eqb_eq in H3. destruct x, y; cbn in *; congruence.
  - intros s' [[|] [|] [|]]; try discriminate. intros _. rewrite tag_mrun. reflexivity.
  - exact tag_bisim.
  - exact I.
Qed.

Lemma lower_codes_same s t : codes_eqb (lower_codes s) (lower_codes t) = true <-> same_ci s t.
Proof.
  rewrite codes_eqb_eq. unfold lower_codes, same_ci. split.
  - revert t. induction s as [|x s IH]; intros [|y t]; simpl; try discriminate; auto.
    intros H. injection H as H1 H2. rewrite <- !code_lower in H1. apply code_inj in H1.
    rewrite (IH t H2). congruence.
  - intros H. assert (E : forall l, map (fun b => lower_code (code b)) l = map code (map lower l)).
    { intros l. rewrite map_map. apply map_ext. intros b. rewrite code_lower. reflexivity. }
    rewrite !E. congruence.
Qed.

Lemma accepts_tag_cases s : accepts LanguageTag s = true <->
  accepts Langtag s = true \/ accepts Privateuse s = true \/ exists g, gf_find GRANDFATHERED s = Some g.
Proof.
  rewrite accepts_tag_product, !orb_true_iff, existsb_exists.
  rewrite <- matches_grandfathered. unfold abnf_grandfathered, abnf_irregular, abnf_regular.
  rewrite matches_Alt, !matches_lits. unfold one_of.
  split.
  - intros [[H|H]|(g & Hg & H)]; auto. apply lower_codes_same in H.
    apply in_app_or in Hg as [Hg|Hg]; eauto 6.
  - intros [H|[H|[(g & Hg & H)|(g & Hg & H)]]]; auto; right; exists g; (split; [apply in_or_app; auto|]);
      apply lower_codes_same; auto.
Qed.

Theorem accepts_tag s : accepts LanguageTag s = true <-> matches abnf_Language_Tag s.
Proof.
  unfold abnf_Language_Tag. rewrite accepts_tag_cases, <- matches_grandfathered, accepts_langtag,
    accepts_privateuse, matches_alts. split.
  - intros [H|[H|H]]; eexists; (split; [|exact H]); simpl; auto.
  - intros (r & [<-|[<-|[<-|[]]]] & H); auto.
Qed.
