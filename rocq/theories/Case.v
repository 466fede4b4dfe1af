(** Proofs about letter case: utils.rs (equality, order, hash), literals, grandfathered parsing. *)
From Verif Require Import Base GrammarRs Validate Utils Grandfathered Normal LangTag Newtypes Derived Spec
  Observe RegexEquiv.

(** * 1. Bytes *)

Lemma code_inj a b : code a = code b -> a = b.
Proof.
  unfold code. intros H. pose proof (Strings.Byte.of_to_N a) as H1.
  rewrite H, Strings.Byte.of_to_N in H1. congruence.
Qed.

Lemma beq_true a b : beq a b = true <-> a = b.
Proof.
  split; [apply Strings.Byte.byte_dec_bl|]. intros ->. apply Strings.Byte.byte_dec_lb. reflexivity.
Qed.

Lemma beq_false a b : beq a b = false <-> a <> b.
Proof. rewrite <- beq_true. destruct (beq a b); split; congruence. Qed.

Lemma beq_refl a : beq a a = true.
Proof. apply beq_true. reflexivity. Qed.

Lemma beq_spec a b : reflect (a = b) (beq a b).
Proof. destruct (beq a b) eqn:E; constructor; [apply beq_true|apply beq_false]; auto. Qed.

Lemma code_lt b : (code b < 256)%N.
Proof. pose proof (Strings.Byte.to_N_bounded b). unfold code. lia. Qed.

(** The addition of [into_smallcase] never wraps. *)
Lemma smallcase_no_wrap c : is_ascii_uppercase c = true -> (code c + 32 < 256)%N.
Proof.
  unfold is_ascii_uppercase. intros H. apply andb_true_iff in H as [_ H]. apply N.leb_le in H. lia.
Qed.

Lemma into_smallcase_lower b : into_smallcase b = lower b.
Proof. destruct b; reflexivity. Qed.

Lemma lower_lower b : lower (lower b) = lower b.
Proof. destruct b; reflexivity. Qed.

Definition lower_code (c : N) : N := if ((65 <=? c) && (c <=? 90))%N then (c + 32)%N else c.

Lemma code_lower b : code (lower b) = lower_code (code b).
Proof. destruct b; reflexivity. Qed.

Lemma lower_dash b : lower b = dash <-> b = dash.
Proof. unfold dash. split; [destruct b; cbn; congruence|intros ->; reflexivity]. Qed.

(** * 2. Structural versions of the loops of utils.rs *)

Fixpoint ci_eqb (a b : bytes) : bool :=
  match a, b with
  | [], [] => true
  | x :: a', y :: b' => beq (lower x) (lower y) && ci_eqb a' b'
  | _, _ => false
  end.

Fixpoint ci_cmp (a b : bytes) : comparison :=
  match a, b with
  | [], [] => Eq
  | [], _ :: _ => Gt
  | _ :: _, [] => Lt
  | x :: a', y :: b' =>
    match byte_cmp (lower x) (lower y) with
    | Eq => ci_cmp a' b'
    | c => c
    end
  end.

Lemma ci_eqb_spec a : forall b, ci_eqb a b = true <-> same_ci a b.
Proof.
  unfold same_ci. induction a as [|x a IH]; intros [|y b]; simpl; split; try discriminate; auto.
  - intros H. apply andb_true_iff in H as [H1 H2]. apply beq_true in H1. apply IH in H2. congruence.
  - intros H. injection H as H1 H2. rewrite H1, beq_refl. apply IH. exact H2.
Qed.

Lemma ci_eqb_false a b : ci_eqb a b = false <-> ~ same_ci a b.
Proof. rewrite <- ci_eqb_spec. destruct (ci_eqb a b); split; congruence. Qed.

Lemma ci_eqb_length a : forall b, ci_eqb a b = true -> length a = length b.
Proof.
  intros b H. apply ci_eqb_spec in H. unfold same_ci in H.
  rewrite <- (map_length lower a), <- (map_length lower b). congruence.
Qed.

Lemma index_app p x (s : bytes) : index (p ++ x :: s) (length p) = Ret x.
Proof. unfold index. rewrite nth_error_app2 by lia. rewrite Nat.sub_diag. reflexivity. Qed.

Lemma eq_loop_spec a : forall b p q, length p = length q -> length a = length b ->
  case_insensitive_eq_loop (p ++ a) (q ++ b) (length a) (length p) = Ret (ci_eqb a b).
Proof.
  induction a as [|x a IH]; intros [|y b] p q Hp Hl; simpl in Hl; try discriminate; [reflexivity|].
  cbn [length case_insensitive_eq_loop ci_eqb].
  rewrite index_app. rewrite Hp, index_app. cbn [bind]. rewrite !into_smallcase_lower.
  destruct (beq (lower x) (lower y)); cbn [negb andb]; [|reflexivity].
  replace (p ++ x :: a) with ((p ++ [x]) ++ a) by (rewrite <- app_assoc; reflexivity).
  replace (q ++ y :: b) with ((q ++ [y]) ++ b) by (rewrite <- app_assoc; reflexivity).
  replace (length q + 1) with (length (p ++ [x])) by (rewrite app_length; simpl; lia).
  apply IH; [rewrite !app_length; simpl; lia|lia].
Qed.

Theorem case_insensitive_eq_spec a b : case_insensitive_eq a b = Ret (ci_eqb a b).
Proof.
  unfold case_insensitive_eq. destruct (Nat.eqb_spec (length a) (length b)) as [H|H].
  - apply (eq_loop_spec a b [] []); auto.
  - destruct (ci_eqb a b) eqn:E; [|reflexivity]. apply ci_eqb_length in E. contradiction.
Qed.

Lemma cmp_loop_spec a : forall b p q fuel, length p = length q -> length a < fuel ->
  case_insensitive_cmp_loop fuel (p ++ a) (q ++ b) (length p) = Ret (ci_cmp a b).
Proof.
  induction a as [|x a IH]; intros b p q [|fuel] Hp Hf; simpl in Hf; try lia;
    cbn [case_insensitive_cmp_loop]; rewrite !app_length.
  - destruct (Nat.leb_spec (length p + length (@nil byte)) (length p)) as [_|H]; [|simpl in H; lia].
    destruct (Nat.leb_spec (length q + length b) (length p)) as [H|H]; destruct b; simpl in *; auto; lia.
  - destruct (Nat.leb_spec (length p + length (x :: a)) (length p)) as [H|_]; [simpl in H; lia|].
    destruct (Nat.leb_spec (length q + length b) (length p)) as [H|H]; destruct b as [|y b]; simpl in H;
      try lia; [reflexivity|].
    rewrite index_app. rewrite Hp, index_app. cbn [bind]. rewrite !into_smallcase_lower. cbn [ci_cmp].
    destruct (byte_cmp (lower x) (lower y)); [|reflexivity|reflexivity].
    replace (p ++ x :: a) with ((p ++ [x]) ++ a) by (rewrite <- app_assoc; reflexivity).
    replace (q ++ y :: b) with ((q ++ [y]) ++ b) by (rewrite <- app_assoc; reflexivity).
    replace (length q + 1) with (length (p ++ [x])) by (rewrite app_length; simpl; lia).
    apply IH; [rewrite !app_length; simpl; lia|lia].
Qed.

Theorem case_insensitive_cmp_spec a b : case_insensitive_cmp a b = Ret (ci_cmp a b).
Proof. unfold case_insensitive_cmp. apply (cmp_loop_spec a b [] []); auto. Qed.

Theorem case_insensitive_hash_spec H a : forall st,
  case_insensitive_hash H a st = fold_left (write_u8 H) (map lower a) st.
Proof.
  induction a as [|x a IH]; intros st; cbn; [reflexivity|]. rewrite into_smallcase_lower. apply IH.
Qed.

(** * 3. [same_ci] *)

Lemma same_ci_refl a : same_ci a a.
Proof. reflexivity. Qed.
Lemma same_ci_sym a b : same_ci a b -> same_ci b a.
Proof. unfold same_ci. congruence. Qed.
Lemma same_ci_trans a b c : same_ci a b -> same_ci b c -> same_ci a c.
Proof. unfold same_ci. congruence. Qed.
Lemma same_ci_lower a : same_ci a (map lower a).
Proof.
  unfold same_ci. rewrite map_map. apply map_ext. intros b. symmetry. apply lower_lower.
Qed.
Lemma same_ci_app a b c d : same_ci a b -> same_ci c d -> same_ci (a ++ c) (b ++ d).
Proof. unfold same_ci. rewrite !map_app. congruence. Qed.
Lemma same_ci_length a b : same_ci a b -> length a = length b.
Proof. intros H. apply ci_eqb_length, ci_eqb_spec, H. Qed.
Lemma same_ci_cons x y a b : same_ci (x :: a) (y :: b) <-> lower x = lower y /\ same_ci a b.
Proof.
  unfold same_ci. simpl. split.
  - intros H. injection H. auto.
  - intros [H1 H2]. congruence.
Qed.
Lemma same_ci_nil a : same_ci [] a <-> a = [].
Proof. unfold same_ci. destruct a; simpl; split; congruence. Qed.

(** * 4. The order *)

Lemma byte_cmp_eq a b : byte_cmp a b = Eq <-> a = b.
Proof.
  unfold byte_cmp. rewrite N.compare_eq_iff. split; [apply code_inj|congruence].
Qed.

Lemma byte_cmp_antisym a b : byte_cmp b a = CompOpp (byte_cmp a b).
Proof. unfold byte_cmp. apply N.compare_antisym. Qed.

Lemma byte_cmp_lt_trans a b c : byte_cmp a b = Lt -> byte_cmp b c = Lt -> byte_cmp a c = Lt.
Proof. unfold byte_cmp. rewrite !N.compare_lt_iff. lia. Qed.

Lemma ci_cmp_eq a : forall b, ci_cmp a b = Eq <-> same_ci a b.
Proof.
  induction a as [|x a IH]; intros [|y b]; cbn [ci_cmp].
  - split; auto; reflexivity.
  - split; [discriminate|]. intros H. apply same_ci_nil in H. discriminate.
  - split; [discriminate|]. intros H. apply same_ci_sym, same_ci_nil in H. discriminate.
  - rewrite same_ci_cons, <- IH. pose proof (byte_cmp_eq (lower x) (lower y)).
    destruct (byte_cmp (lower x) (lower y)); split; try tauto; try discriminate;
      intros [? ?]; tauto.
Qed.

Lemma ci_cmp_antisym a : forall b, ci_cmp b a = CompOpp (ci_cmp a b).
Proof.
  induction a as [|x a IH]; intros [|y b]; cbn [ci_cmp]; auto.
  rewrite (byte_cmp_antisym (lower x)). destruct (byte_cmp (lower x) (lower y)); cbn; auto.
Qed.

Lemma ci_cmp_lt_trans a : forall b c, ci_cmp a b = Lt -> ci_cmp b c = Lt -> ci_cmp a c = Lt.
Proof.
  induction a as [|x a IH]; intros [|y b] [|z c]; cbn [ci_cmp]; try discriminate; auto.
  destruct (byte_cmp (lower x) (lower y)) eqn:E1; destruct (byte_cmp (lower y) (lower z)) eqn:E2;
    try discriminate; intros H1 H2.
  - apply byte_cmp_eq in E1. rewrite E1, E2. eauto.
  - apply byte_cmp_eq in E1. rewrite E1, E2. auto.
  - apply byte_cmp_eq in E2. rewrite <- E2, E1. auto.
  - rewrite (byte_cmp_lt_trans _ _ _ E1 E2). auto.
Qed.

Lemma ci_cmp_lower a : forall b, ci_cmp (map lower a) (map lower b) = ci_cmp a b.
Proof.
  induction a as [|x a IH]; intros [|y b]; cbn [ci_cmp map]; auto.
  rewrite !lower_lower, IH. reflexivity.
Qed.

Lemma ci_cmp_same a a' b b' : same_ci a a' -> same_ci b b' -> ci_cmp a b = ci_cmp a' b'.
Proof.
  intros H1 H2. rewrite <- (ci_cmp_lower a), <- (ci_cmp_lower a'). unfold same_ci in *. congruence.
Qed.

(** Agreement with the lexicographic order when neither text is a proper prefix of the other. *)
Lemma ci_cmp_lex a : forall b,
  (prefix (map lower a) (map lower b) -> same_ci a b) ->
  (prefix (map lower b) (map lower a) -> same_ci a b) ->
  ci_cmp a b = lex (map lower a) (map lower b).
Proof.
  induction a as [|x a IH]; intros [|y b] H1 H2; cbn [ci_cmp lex map]; auto.
  - exfalso. assert (H : same_ci [] (y :: b)) by (apply H1; eexists; reflexivity).
    apply same_ci_nil in H. discriminate.
  - exfalso. assert (H : same_ci (x :: a) []) by (apply H2; eexists; reflexivity).
    apply same_ci_sym, same_ci_nil in H. discriminate.
  - fold (byte_cmp (lower x) (lower y)). destruct (byte_cmp (lower x) (lower y)) eqn:E; auto.
    apply byte_cmp_eq in E. apply IH.
    + intros [c Hc]. cbn in H1, H2.
      assert (H : same_ci (x :: a) (y :: b)) by (apply H1; exists c; simpl; congruence).
      apply same_ci_cons in H. tauto.
    + intros [c Hc]. cbn in H1, H2.
      assert (H : same_ci (x :: a) (y :: b)) by (apply H2; exists c; simpl; congruence).
      apply same_ci_cons in H. tauto.
Qed.

Lemma ci_cmp_prefix a b : prefix (map lower a) (map lower b) -> ~ same_ci a b -> ci_cmp a b = Gt.
Proof.
  revert b. induction a as [|x a IH]; intros [|y b] [c Hc] Hn; cbn [ci_cmp]; auto.
  - exfalso; apply Hn; reflexivity.
  - discriminate.
  - cbn in Hc. injection Hc as Hy Hb. rewrite Hy.
    assert (E : byte_cmp (lower x) (lower x) = Eq) by (apply byte_cmp_eq; auto).
    rewrite E. apply IH; [exists c; auto|]. intros H; apply Hn, same_ci_cons. auto.
Qed.

(** * 5. Literals *)

Lemma any_case_spec b x : in_cls (match any_case b with Cls l => l | _ => [] end) (code x) =
  beq (lower x) (lower b).
Proof.
  unfold any_case.
  assert (E : beq (lower x) (lower b) = (lower_code (code x) =? lower_code (code b))%N).
  { rewrite <- !code_lower. destruct (beq_spec (lower x) (lower b)) as [->|H].
    - rewrite N.eqb_refl. reflexivity.
    - symmetry. apply N.eqb_neq. intros H'. apply H, code_inj, H'. }
  rewrite E. unfold is_upper, is_lower, lower_code, in_cls. generalize (code x) (code b). intros c d.
  apply eq_true_iff_eq.
  repeat match goal with
  | |- context [(?u <=? ?v)%N] => destruct (N.leb_spec u v)
  end; cbn [andb orb existsb fst snd];
  rewrite ?orb_true_iff, ?andb_true_iff, ?N.leb_le, ?N.eqb_eq, ?orb_false_r; 
  try (split; intros; try discriminate; lia).
Qed.

Lemma matches_any_case b s : matches (any_case b) s <-> exists x, s = [x] /\ lower x = lower b.
Proof.
  pose proof (any_case_spec b) as H. unfold any_case in *.
  destruct (is_upper b); [|destruct (is_lower b)]; rewrite matches_Cls;
    (split; intros (x & -> & Hx); exists x; split; auto;
     [rewrite H in Hx; apply beq_true; auto|rewrite H, Hx; apply beq_refl]).
Qed.

Lemma matches_lit_bytes l : forall s, matches (lit_bytes l) s <-> same_ci s l.
Proof.
  induction l as [|b l IH]; intros s; cbn [lit_bytes].
  - rewrite matches_Eps. split; [intros ->; reflexivity|]. intros H. apply same_ci_sym, same_ci_nil in H. auto.
  - rewrite matches_Cat. split.
    + intros (u & v & -> & H1 & H2). apply matches_any_case in H1 as (x & -> & Hx). apply IH in H2.
      apply same_ci_cons. auto.
    + intros H. destruct s as [|x s]; [apply same_ci_nil in H; discriminate|].
      apply same_ci_cons in H as [H1 H2]. exists [x], s. split; auto. split.
      * apply matches_any_case. eauto.
      * apply IH; auto.
Qed.

Lemma matches_lit g s : matches (lit g) s <-> same_ci s (bs g).
Proof. apply matches_lit_bytes. Qed.

Lemma matches_alts l s : matches (alts l) s <-> exists r, In r l /\ matches r s.
Proof.
  induction l as [|r l IH]; cbn [alts].
  - rewrite matches_Void. split; [tauto|]. intros (r & [] & _).
  - destruct l as [|r' l].
    + split; [intros H; exists r; simpl; auto|]. intros (r' & [<-|[]] & H). auto.
    + rewrite matches_Alt, IH. split.
      * intros [H|(r0 & H1 & H2)]; [exists r; simpl; auto|exists r0; simpl in *; tauto].
      * intros (r0 & [<-|H1] & H2); eauto.
Qed.

Lemma matches_lits l s : matches (alts (map lit l)) s <-> one_of l s.
Proof.
  rewrite matches_alts. unfold one_of. split.
  - intros (r & H & Hm). apply in_map_iff in H as (g & <- & Hg). exists g. split; auto. apply matches_lit; auto.
  - intros (g & Hg & H). exists (lit g). split; [apply in_map; auto|apply matches_lit; auto].
Qed.

(** * 6. Grandfathered parsing *)

Fixpoint gf_find (l : list grandfathered) (s : bytes) : option grandfathered :=
  match l with
  | [] => None
  | g :: l' => if ci_eqb (Grandfathered_as_bytes g) s then Some g else gf_find l' s
  end.

Definition gf_result (s : bytes) : result grandfathered bytes :=
  match gf_find GRANDFATHERED s with Some g => Ok g | None => Err s end.

Lemma try_from_loop_spec l s :
  try_from_loop l s = Ret match gf_find l s with Some g => Ok g | None => Err s end.
Proof.
  induction l as [|g l IH]; cbn; [reflexivity|].
  rewrite case_insensitive_eq_spec. cbn. destruct (ci_eqb (Grandfathered_as_bytes g) s); auto.
Qed.

Lemma Grandfathered_new_spec s : Grandfathered_new s = Ret (gf_result s).
Proof.
  unfold Grandfathered_new, Grandfathered_try_from, gf_result. rewrite try_from_loop_spec. cbn [bind].
  destruct (gf_find GRANDFATHERED s); reflexivity.
Qed.

Lemma GRANDFATHERED_all g : In g GRANDFATHERED.
Proof. destruct g; cbn; tauto. Qed.

Lemma gf_find_some l s g : gf_find l s = Some g -> In g l /\ same_ci s (Grandfathered_as_bytes g).
Proof.
  induction l as [|h l IH]; cbn; [discriminate|].
  destruct (ci_eqb (Grandfathered_as_bytes h) s) eqn:E.
  - intros H. injection H as ->. split; auto. apply same_ci_sym, ci_eqb_spec, E.
  - intros H. apply IH in H. tauto.
Qed.

Lemma gf_find_none l s g : gf_find l s = None -> In g l -> ~ same_ci s (Grandfathered_as_bytes g).
Proof.
  induction l as [|h l IH]; cbn; [tauto|].
  destruct (ci_eqb (Grandfathered_as_bytes h) s) eqn:E; [discriminate|].
  intros H [->|Hin]; [|auto]. apply ci_eqb_false in E. intros H'. apply E, same_ci_sym, H'.
Qed.

Lemma gf_texts_distinct g h : same_ci (Grandfathered_as_bytes g) (Grandfathered_as_bytes h) -> g = h.
Proof.
  intros H. apply ci_eqb_spec in H.
  destruct g, h; try reflexivity; vm_compute in H; discriminate.
Qed.

Lemma gf_find_spec s g : gf_find GRANDFATHERED s = Some g <-> same_ci s (Grandfathered_as_bytes g).
Proof.
  split.
  - intros H. apply gf_find_some in H. tauto.
  - intros H. destruct (gf_find GRANDFATHERED s) as [h|] eqn:E.
    + apply gf_find_some in E as [_ E]. f_equal. apply gf_texts_distinct.
      eapply same_ci_trans; [apply same_ci_sym, E|exact H].
    + exfalso. exact (gf_find_none _ _ g E (GRANDFATHERED_all g) H).
Qed.

(** Texts of the constructors against the literals of the ABNF. *)
Definition gf_irregular (g : grandfathered) : bool :=
  match g with
  | EnGbOed | IAmi | IBnn | IDefault | IEnochian | IHak | IKlingon | ILux | IMingo | INavajo | IPwn | ITao
  | ITay | ITsu | SgnBeFr | SgnBeNl | SgnChDe => true
  | _ => false
  end.

Lemma gf_texts :
  map Grandfathered_as_bytes (filter gf_irregular GRANDFATHERED) = map bs irregular_tags /\
  map Grandfathered_as_bytes (filter (fun g => negb (gf_irregular g)) GRANDFATHERED) = map bs regular_tags.
Proof. split; reflexivity. Qed.

Lemma one_of_irregular s : one_of irregular_tags s <->
  exists g, gf_irregular g = true /\ same_ci s (Grandfathered_as_bytes g).
Proof.
  destruct gf_texts as [H _]. unfold one_of. split.
  - intros (x & Hx & Hs). apply (in_map bs) in Hx. rewrite <- H in Hx.
    apply in_map_iff in Hx as (g & Hg & Hin). apply filter_In in Hin as [_ Hin].
    exists g. rewrite Hg. auto.
  - intros (g & Hg & Hs). assert (Hin : In (Grandfathered_as_bytes g) (map bs irregular_tags)).
    { rewrite <- H. apply in_map, filter_In. split; [apply GRANDFATHERED_all|exact Hg]. }
    apply in_map_iff in Hin as (x & Hx & Hin). exists x. rewrite Hx. auto.
Qed.

Lemma one_of_regular s : one_of regular_tags s <->
  exists g, gf_irregular g = false /\ same_ci s (Grandfathered_as_bytes g).
Proof.
  destruct gf_texts as [_ H]. unfold one_of. split.
  - intros (x & Hx & Hs). apply (in_map bs) in Hx. rewrite <- H in Hx.
    apply in_map_iff in Hx as (g & Hg & Hin). apply filter_In in Hin as [_ Hin].
    apply negb_true_iff in Hin. exists g. rewrite Hg. auto.
  - intros (g & Hg & Hs). assert (Hin : In (Grandfathered_as_bytes g) (map bs regular_tags)).
    { rewrite <- H. apply in_map, filter_In. split; [apply GRANDFATHERED_all|]. rewrite Hg. reflexivity. }
    apply in_map_iff in Hin as (x & Hx & Hin). exists x. rewrite Hx. auto.
Qed.

Lemma matches_grandfathered s : matches abnf_grandfathered s <-> exists g, gf_find GRANDFATHERED s = Some g.
Proof.
  unfold abnf_grandfathered, abnf_irregular, abnf_regular.
  rewrite matches_Alt, !matches_lits, one_of_irregular, one_of_regular. split.
  - intros [(g & _ & H)|(g & _ & H)]; exists g; apply gf_find_spec; auto.
  - intros [g H]. apply gf_find_spec in H. destruct (gf_irregular g) eqn:E; eauto.
Qed.
