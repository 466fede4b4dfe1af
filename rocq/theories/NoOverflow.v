(** No addition or subtraction overflows (C57): the model with overflow is the model. *)
From Verif Require Import Base GrammarRs Validate Utils Grandfathered Normal LangTag Newtypes Derived Spec Observe
  RegexEquiv Accept Case Scan Iter Kind Terminate Checked.

Definition roomy (M : machine) (n : nat) : Prop := n + 4 <= usize_max M.

Lemma add_ok M a b : a + b <= usize_max M -> add M a b = Ret (a + b).
Proof. intros H. unfold add. destruct (Nat.leb_spec (a + b) (usize_max M)); [reflexivity|lia]. Qed.
Lemma minus_ok M a b : b <= a -> minus M a b = Ret (a - b).
Proof. intros H. unfold minus. destruct (Nat.leb_spec b a); [reflexivity|lia]. Qed.

Lemma bind_ext {A B} (x : outcome A) (f g : A -> outcome B) : (forall a, x = Ret a -> f a = g a) -> bind x f = bind x g.
Proof. intros H. destruct x; cbn; auto. Qed.
Lemma bind_same {A B} (x y : outcome A) (f g : A -> outcome B) : x = y -> (forall a, y = Ret a -> f a = g a) -> bind x f = bind y g.
Proof. intros ->. apply bind_ext. Qed.

(** * 1. Validation *)

Lemma decode_len s i c n : decode_utf8_char s i = Some (c, n) -> n <= 4.
Proof.
  unfold decode_utf8_char.
  repeat match goal with |- context [match ?x with _ => _ end] => destruct x end; intros E; try discriminate;
    injection E as _ <-; lia.
Qed.

Lemma c_validate_loop_eq M A s : roomy M (length s) -> forall fuel i q,
  c_validate_loop M decode_utf8_char A fuel s i q = validate_loop decode_utf8_char A fuel s i q.
Proof.
  intros R fuel. induction fuel as [|fuel IH]; intros i q; cbn [c_validate_loop validate_loop]; auto.
  destruct (Nat.ltb_spec i (length s)); auto.
  destruct (decode_utf8_char s i) as [[c n]|] eqn:E; auto. destruct (push A q c); auto.
  apply decode_len in E. unfold roomy in R. rewrite add_ok by lia. apply IH.
Qed.
Lemma c_new_eq M A s : roomy M (length s) -> c_new M A s = new A s.
Proof. intros R. unfold c_new, new, c_validate, validate, validate_with. rewrite c_validate_loop_eq by exact R. reflexivity. Qed.
Lemma c_new_is_ok_eq M A s : roomy M (length s) -> c_new_is_ok M A s = new_is_ok A s.
Proof. intros R. unfold c_new_is_ok, new_is_ok. rewrite c_new_eq by exact R. reflexivity. Qed.

(** * 2. Bytes *)

Lemma c_into_smallcase_eq M b : c_into_smallcase M b = Ret (into_smallcase b).
Proof. destruct b; reflexivity. Qed.
Lemma c_eq_loop_eq M a b n : forall i, c_eq_loop M a b n i = case_insensitive_eq_loop a b n i.
Proof.
  induction n as [|n IH]; intros i; cbn [c_eq_loop case_insensitive_eq_loop]; [reflexivity|].
  apply bind_ext. intros x _. rewrite c_into_smallcase_eq. cbn [bind].
  apply bind_ext. intros y _. rewrite c_into_smallcase_eq. cbn [bind]. rewrite IH. reflexivity.
Qed.
Lemma c_eq_eq M a b : c_eq M a b = case_insensitive_eq a b.
Proof. unfold c_eq, case_insensitive_eq. rewrite c_eq_loop_eq. reflexivity. Qed.
Lemma c_hash_eq M H s : forall st, c_hash M H s st = Ret (case_insensitive_hash H s st).
Proof.
  induction s as [|b s IH]; intros st; cbn [c_hash case_insensitive_hash]; [reflexivity|].
  rewrite c_into_smallcase_eq. cbn [bind]. apply IH.
Qed.
Lemma c_cmp_loop_eq M a b : roomy M (length a) -> forall fuel i, c_cmp_loop M fuel a b i = case_insensitive_cmp_loop fuel a b i.
Proof.
  intros R fuel. induction fuel as [|fuel IH]; intros i; cbn [c_cmp_loop case_insensitive_cmp_loop]; [reflexivity|].
  destruct (Nat.leb_spec (length a) i); [reflexivity|]. destruct (length b <=? i); [reflexivity|].
  apply bind_ext. intros x _. rewrite c_into_smallcase_eq. cbn [bind].
  apply bind_ext. intros y _. rewrite c_into_smallcase_eq. cbn [bind].
  destruct (byte_cmp _ _); auto. unfold roomy in R. rewrite add_ok by lia. apply IH.
Qed.
Lemma c_cmp_eq M a b : roomy M (length a) -> c_cmp M a b = case_insensitive_cmp a b.
Proof. intros R. apply c_cmp_loop_eq, R. Qed.

(** * 3. Scans *)

Lemma slice_length s a b x : slice s a b = Ret x -> length x <= length s /\ b <= length s.
Proof.
  unfold slice. destruct (_ && _) eqn:E; [|discriminate]. rewrite !andb_true_iff in E. intros [= <-].
  rewrite firstn_length, skipn_length. split; [lia|]. destruct E as [[[_ E] _] _] || destruct E as [[E0 E1] _];
  (apply Nat.leb_le in E || (rewrite ?Nat.leb_le in *; lia)); lia.
Qed.
Lemma slice_from_length s a x : slice_from s a = Ret x -> length x <= length s /\ a <= length s.
Proof.
  unfold slice_from. destruct (_ && _) eqn:E; [|discriminate]. rewrite !andb_true_iff in E. intros [= <-].
  rewrite skipn_length. split; [lia|]. destruct E as [E _]. apply Nat.leb_le in E. exact E.
Qed.

Lemma c_find_list_end_loop_eq M s f g : roomy M (length s) ->
  (forall o x, length x <= length s -> f o x = g o x) -> forall fuel i off e,
  c_find_list_end_loop M fuel s f i off e = find_list_end_loop fuel s g i off e.
Proof.
  intros R F fuel. induction fuel as [|fuel IH]; intros i off e; cbn [c_find_list_end_loop find_list_end_loop];
    destruct (Nat.ltb_spec i (length s)); auto;
    try (apply bind_ext; intros x E; apply slice_from_length in E as [E _]; rewrite F by exact E; reflexivity).
  apply bind_ext. intros b _. unfold roomy in R. rewrite add_ok by lia. cbn [bind].
  destruct (beq b dash); [|apply IH].
  apply bind_ext. intros x E. apply slice_length in E as [E _]. rewrite F by exact E.
  apply bind_ext. intros k _. destruct k; [apply IH|reflexivity].
Qed.
Lemma c_find_list_end_eq M s off f g : roomy M (length s) ->
  (forall o x, length x <= length s -> f o x = g o x) -> c_find_list_end M s off f = find_list_end s off g.
Proof. intros R F. apply c_find_list_end_loop_eq; auto. Qed.

Lemma find_list_end_loop_le s f : forall fuel i off e r, e <= length s \/ e = off ->
  find_list_end_loop fuel s f i off e = Ret r -> r <= length s.
Proof.
  intros fuel. induction fuel as [|fuel IH]; intros i off e r I; cbn [find_list_end_loop];
    destruct (Nat.ltb_spec i (length s)) as [L|L]; intros E; try discriminate E.
  1,3: destruct (slice_from s off) as [x| |] eqn:S; try discriminate E; cbn [bind] in E;
    destruct (f off x) as [k| |]; try discriminate E; cbn [bind] in E;
    apply slice_from_length in S as [_ S]; injection E as <-; destruct k; lia.
  destruct (index s i) as [b| |]; try discriminate E. cbn [bind] in E. destruct (beq b dash).
  - destruct (slice s off i) as [x| |] eqn:S; try discriminate E. cbn [bind] in E.
    destruct (f off x) as [k| |]; try discriminate E. cbn [bind] in E. destruct k.
    + apply IH in E; [exact E|lia].
    + injection E as <-. unfold slice in S. destruct (_ && _) eqn:B in S; [|discriminate S].
      rewrite !andb_true_iff, !Nat.leb_le in B. lia.
  - apply IH in E; [exact E|exact I].
Qed.
Lemma find_list_end_le s off f r : find_list_end s off f = Ret r -> r <= length s.
Proof. apply find_list_end_loop_le. right. reflexivity. Qed.

Lemma c_find_segment_end_loop_eq M s : roomy M (length s) -> forall fuel i,
  c_find_segment_end_loop M fuel s i = find_segment_end_loop fuel s i.
Proof.
  intros R fuel. induction fuel as [|fuel IH]; intros i; cbn [c_find_segment_end_loop find_segment_end_loop];
    destruct (Nat.ltb_spec i (length s)); auto.
  apply bind_ext. intros b _. destruct (beq b dash); [reflexivity|]. unfold roomy in R. rewrite add_ok by lia. apply IH.
Qed.
Lemma c_find_segment_end_eq M s off : roomy M (length s) -> c_find_segment_end M s off = find_segment_end s off.
Proof. intros R. apply c_find_segment_end_loop_eq, R. Qed.

Lemma index_lt s i b : index s i = Ret b -> i < length s.
Proof. unfold index. destruct (nth_error s i) eqn:E; [|discriminate]. intros _. apply nth_error_Some. congruence. Qed.

Lemma c_find_segment_start_loop_eq M s : roomy M (length s) -> forall i fuel, i <= fuel ->
  c_find_segment_start_loop M fuel s i = find_segment_start_loop s i.
Proof.
  intros R. unfold roomy in R. induction i as [|i IH]; intros fuel L.
  - destruct fuel; cbn [c_find_segment_start_loop find_segment_start_loop]; apply bind_ext; intros b E;
      (destruct (beq b dash); [apply index_lt in E; apply add_ok; lia|reflexivity]).
  - destruct fuel as [|fuel]; [lia|]. cbn [c_find_segment_start_loop find_segment_start_loop].
    apply bind_ext. intros b E. apply index_lt in E. destruct (beq b dash); [apply add_ok; lia|].
    cbn [Nat.ltb Nat.leb]. rewrite minus_ok by lia. cbn [bind]. replace (S i - 1) with i by lia. apply IH. lia.
Qed.
Lemma c_find_segment_start_eq M s e : roomy M (length s) -> c_find_segment_start M s e = find_segment_start s e.
Proof.
  intros R. unfold c_find_segment_start, find_segment_start. destruct e as [|i]; [reflexivity|].
  cbn [Nat.ltb Nat.leb]. rewrite minus_ok by lia. cbn [bind]. replace (S i - 1) with i by lia.
  apply c_find_segment_start_loop_eq; [exact R|lia].
Qed.

(** * 4. Accessors *)

Section Accessors.
Variables (M : machine) (s : bytes).
Hypothesis R : roomy M (length s).

Lemma sub_roomy (x : bytes) : length x <= length s -> roomy M (length x).
Proof. unfold roomy in *. lia. Qed.

Lemma c_language_end_eq : c_language_end M s = language_end s.
Proof.
  apply c_find_list_end_eq; [exact R|]. intros o x L. destruct (o =? 0); [reflexivity|].
  apply c_new_is_ok_eq, sub_roomy, L.
Qed.
Lemma language_end_le e : language_end s = Ret e -> e <= length s.
Proof. apply find_list_end_le. Qed.
Lemma c_script_range_eq : c_script_range M s = script_range s.
Proof.
  unfold c_script_range, script_range. apply bind_same; [exact c_language_end_eq|].
  intros e E. apply language_end_le in E. unfold roomy in R. rewrite add_ok by lia. cbn [bind].
  apply bind_same; [|reflexivity]. apply c_find_list_end_eq; [exact R|]. intros o x L.
  destruct (o =? e + 1); [|reflexivity]. apply c_new_is_ok_eq, sub_roomy, L.
Qed.
Lemma script_range_le r : script_range s = Ret r -> end_of r <= length s.
Proof.
  unfold script_range. destruct (language_end s) as [e| |] eqn:E; try discriminate. cbn [bind].
  destruct (find_list_end _ _ _) as [e'| |] eqn:E'; try discriminate. cbn [bind]. intros [= <-].
  apply language_end_le in E. apply find_list_end_le in E'. destruct (negb _); exact E' || exact E.
Qed.
Lemma c_region_range_eq : c_region_range M s = region_range s.
Proof.
  unfold c_region_range, region_range. apply bind_same; [exact c_script_range_eq|].
  intros r E. apply script_range_le in E. unfold roomy in R. rewrite add_ok by lia. cbn [bind].
  apply bind_same; [|reflexivity]. apply c_find_list_end_eq; [exact R|]. intros o x L.
  destruct (o =? end_of r + 1); [|reflexivity]. apply c_new_is_ok_eq, sub_roomy, L.
Qed.
Lemma region_range_le r : region_range s = Ret r -> end_of r <= length s.
Proof.
  unfold region_range. destruct (script_range s) as [e| |] eqn:E; try discriminate. cbn [bind].
  destruct (find_list_end _ _ _) as [e'| |] eqn:E'; try discriminate. cbn [bind]. intros [= <-].
  apply script_range_le in E. apply find_list_end_le in E'. destruct (negb _); exact E' || exact E.
Qed.
Lemma c_variants_range_eq : c_variants_range M s = variants_range s.
Proof.
  unfold c_variants_range, variants_range. apply bind_same; [exact c_region_range_eq|].
  intros r E. apply region_range_le in E. unfold roomy in R. rewrite add_ok by lia. cbn [bind].
  apply bind_same; [|reflexivity]. apply c_find_list_end_eq; [exact R|]. intros o x L.
  apply c_new_is_ok_eq, sub_roomy, L.
Qed.
Lemma variants_range_le r : variants_range s = Ret r -> snd r <= length s.
Proof.
  unfold variants_range. destruct (region_range s) as [e| |] eqn:E; try discriminate. cbn [bind].
  destruct (find_list_end _ _ _) as [e'| |] eqn:E'; try discriminate. cbn [bind]. intros [= <-].
  apply region_range_le in E. apply find_list_end_le in E'. destruct (_ =? _); exact E' || exact E.
Qed.
Lemma c_extensions_range_eq : c_extensions_range M s = extensions_range s.
Proof.
  unfold c_extensions_range, extensions_range. apply bind_same; [exact c_variants_range_eq|].
  intros r E. apply variants_range_le in E. unfold roomy in R. rewrite add_ok by lia. cbn [bind].
  apply bind_same; [|reflexivity]. apply c_find_list_end_eq; [exact R|]. intros o x L.
  apply bind_ext. intros a _. destruct (is_ok a); [reflexivity|]. apply c_new_is_ok_eq, sub_roomy, L.
Qed.

Lemma c_accessors_eq :
  c_language M s = NormalLangTag_language s /\ c_script M s = NormalLangTag_script s /\
  c_region M s = NormalLangTag_region s /\ c_variants M s = NormalLangTag_variants s /\
  c_extensions M s = NormalLangTag_extensions s /\ c_private_use M s = NormalLangTag_private_use s.
Proof.
  unfold c_language, c_script, c_region, c_variants, c_extensions. rewrite c_language_end_eq, c_script_range_eq,
    c_region_range_eq, c_variants_range_eq, c_extensions_range_eq. repeat split.
  unfold c_private_use, NormalLangTag_private_use, private_use_offset. rewrite c_variants_range_eq.
  destruct (variants_range s) as [r| |]; try reflexivity. cbn [bind].
  destruct (Nat.ltb_spec (snd r) (length s)); [|reflexivity]. unfold roomy in R. rewrite add_ok by lia. reflexivity.
Qed.
End Accessors.

(** * 5. Iterators *)

Lemma find_segment_end_le s : forall fuel i e, i < length s -> find_segment_end_loop fuel s i = Ret e -> e <= length s.
Proof.
  induction fuel as [|fuel IH]; intros i e L; cbn [find_segment_end_loop]; destruct (Nat.ltb_spec i (length s)); try lia;
    try discriminate.
  destruct (index s i) as [b| |]; try discriminate. cbn [bind]. destruct (beq b dash); [intros [= <-]; lia|].
  intros E. destruct (Nat.lt_ge_cases (i + 1) (length s)) as [H'|H']; [exact (IH _ _ H' E)|].
  destruct fuel; cbn [find_segment_end_loop] in E; (destruct (Nat.ltb_spec (i + 1) (length s)); [lia|]);
    injection E as <-; lia.
Qed.

Lemma c_segment_next_eq M it : roomy M (length (it_data it)) -> c_segment_next M it = segment_next it.
Proof.
  intros R. unfold c_segment_next, segment_next. destruct (Nat.ltb_spec (it_offset it) (length (it_data it))); [|reflexivity].
  apply bind_same; [apply c_find_segment_end_eq, R|]. intros e E.
  apply bind_ext. intros x S. apply slice_length in S as [_ S]. unfold roomy in R. rewrite add_ok by lia. reflexivity.
Qed.

Lemma c_get_loop_eq M s c : roomy M (length s) -> forall fuel i b, i <= length s ->
  c_get_loop M fuel s c i b = Extensions_get_loop fuel s c i b.
Proof.
  intros R fuel. induction fuel as [|fuel IH]; intros i st L; cbn [c_get_loop Extensions_get_loop];
    unfold roomy in R; rewrite add_ok by lia; cbn [bind]; [reflexivity|].
  destruct (Nat.ltb_spec (i + 1) (length s)); [|reflexivity]. apply bind_ext. intros b _.
  destruct st; [|apply IH; lia]. apply bind_ext. intros h _. destruct h; [|apply IH; lia].
  rewrite add_ok by lia. cbn [bind]. rewrite (c_find_list_end_eq M s _ _ (fun _ segment => Ret (1 <? length segment)));
    [reflexivity|exact R|reflexivity].
Qed.
Lemma c_get_eq M s c : roomy M (length s) -> c_get M s c = Extensions_get s c.
Proof. intros R. apply c_get_loop_eq; [exact R|lia]. Qed.

Lemma c_extensions_next_eq M it : roomy M (length (it_data it)) -> c_extensions_next M it = ExtensionsIter_next it.
Proof.
  intros R. unfold c_extensions_next, ExtensionsIter_next.
  destruct (Nat.ltb_spec (it_offset it) (length (it_data it))); [|reflexivity].
  unfold roomy in R. rewrite add_ok by lia. cbn [bind].
  apply bind_same.
  { apply c_find_list_end_eq; [exact R|]. intros o x L. apply c_new_is_ok_eq. unfold roomy. lia. }
  intros e E. apply find_list_end_le in E. apply bind_ext. intros x _. rewrite add_ok by lia. reflexivity.
Qed.

Lemma c_variants_next_eq M it : roomy M (length (v_data it)) -> c_variants_next M it = VariantsIter_next it.
Proof.
  intros R. unfold c_variants_next, VariantsIter_next. destruct (v_offset it <? v_end it); [|reflexivity].
  apply bind_same; [apply c_find_segment_end_eq, R|]. intros e E.
  apply bind_ext. intros x S. apply slice_length in S as [_ S]. unfold roomy in R. rewrite add_ok by lia. reflexivity.
Qed.
Lemma c_variants_next_back_eq M it : roomy M (length (v_data it)) ->
  c_variants_next_back M it = VariantsIter_next_back it.
Proof.
  intros R. unfold c_variants_next_back, VariantsIter_next_back. destruct (v_offset it <? v_end it); [|reflexivity].
  apply bind_same; [apply c_find_segment_start_eq, R|]. intros b E. apply bind_ext. intros x _.
  destruct (Nat.ltb_spec 0 b); [|reflexivity]. rewrite minus_ok by lia. reflexivity.
Qed.

Lemma isize_roomy M n : 8 <= usize_max M -> n <= usize_max M / 2 -> roomy M n.
Proof.
  intros H L. unfold roomy. pose proof (Nat.div_mod (usize_max M) 2). pose proof (Nat.mod_upper_bound (usize_max M) 2). lia.
Qed.
