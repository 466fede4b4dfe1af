(** The running times of Cost.v: the counted functions compute the same, and the counts are linear (C58). *)
From Verif Require Import Base GrammarRs Validate Utils Grandfathered Normal LangTag Newtypes Derived Cost Spec Observe
  RegexEquiv Accept AcceptTag Case CaseTag Direct Parse Scan Access Iter Kind Grammar Parts Values Terminate NoOverflow.

(** * 1. The same outcomes *)

Lemma snd_kbind {A B} (x : costed A) (f : A -> costed B) : snd (kbind x f) = bind (snd x) (fun a => snd (f a)).
Proof. unfold kbind. destruct (snd x); reflexivity. Qed.
Lemma snd_tick {A} (x : costed A) : snd (tick x) = snd x.
Proof. reflexivity. Qed.

Lemma bind_eq {A B} (x y : outcome A) (f g : A -> outcome B) : x = y -> (forall a, f a = g a) -> bind x f = bind y g.
Proof. intros -> H. destruct y; cbn; auto. Qed.

Lemma k_validate_loop_same d A s : forall fuel i q, snd (k_validate_loop d A fuel s i q) = validate_loop d A fuel s i q.
Proof.
  induction fuel as [|fuel IH]; intros i q; cbn [k_validate_loop validate_loop]; destruct (i <? length s); auto.
  rewrite snd_tick. destruct (d s i) as [[c n]|]; auto. destruct (push A q c); auto.
Qed.
Lemma k_new_same A s : snd (k_new A s) = new A s.
Proof. unfold k_new. rewrite snd_kbind, k_validate_loop_same. reflexivity. Qed.
Lemma k_new_is_ok_same A s : snd (k_new_is_ok A s) = new_is_ok A s.
Proof. unfold k_new_is_ok. rewrite snd_kbind, k_new_same. reflexivity. Qed.

Lemma k_eq_loop_same a b n : forall i, snd (k_eq_loop a b n i) = case_insensitive_eq_loop a b n i.
Proof.
  induction n as [|n IH]; intros i; cbn [k_eq_loop case_insensitive_eq_loop]; [reflexivity|].
  rewrite snd_tick, snd_kbind. apply bind_eq; [reflexivity|]. intros x. rewrite snd_kbind. apply bind_eq; [reflexivity|].
  intros y. destruct (negb _); [reflexivity|apply IH].
Qed.
Lemma k_eq_same a b : snd (k_eq a b) = case_insensitive_eq a b.
Proof. unfold k_eq, case_insensitive_eq. destruct (_ =? _); [apply k_eq_loop_same|reflexivity]. Qed.
Lemma k_hash_same H s : forall st, snd (k_hash H s st) = Ret (case_insensitive_hash H s st).
Proof. induction s as [|b s IH]; intros st; cbn [k_hash case_insensitive_hash]; [reflexivity|]. rewrite snd_tick. apply IH. Qed.
Lemma k_cmp_loop_same a b : forall fuel i, snd (k_cmp_loop fuel a b i) = case_insensitive_cmp_loop fuel a b i.
Proof.
  induction fuel as [|fuel IH]; intros i; cbn [k_cmp_loop case_insensitive_cmp_loop]; [reflexivity|]. rewrite snd_tick.
  destruct (length a <=? i); [destruct (length b <=? i); reflexivity|]. destruct (length b <=? i); [reflexivity|].
  rewrite snd_kbind. apply bind_eq; [reflexivity|]. intros x. rewrite snd_kbind. apply bind_eq; [reflexivity|]. intros y.
  destruct (byte_cmp _ _); [apply IH|reflexivity..].
Qed.
Lemma k_cmp_same a b : snd (k_cmp a b) = case_insensitive_cmp a b.
Proof. apply k_cmp_loop_same. Qed.

Lemma k_try_from_loop_same s l : snd (k_try_from_loop l s) = try_from_loop l s.
Proof.
  induction l as [|g l IH]; cbn [k_try_from_loop try_from_loop]; [reflexivity|]. rewrite snd_tick, snd_kbind, k_eq_same.
  apply bind_eq; [reflexivity|]. intros [|]; [reflexivity|exact IH].
Qed.
Lemma k_grandfathered_new_same s : snd (k_grandfathered_new s) = Grandfathered_new s.
Proof.
  unfold k_grandfathered_new, Grandfathered_new, Grandfathered_try_from. rewrite snd_kbind, k_try_from_loop_same. reflexivity.
Qed.

Lemma k_find_list_end_loop_same s f g : (forall o x, snd (f o x) = g o x) -> forall fuel i off e,
  snd (k_find_list_end_loop fuel s f i off e) = find_list_end_loop fuel s g i off e.
Proof.
  intros F. induction fuel as [|fuel IH]; intros i off e; cbn [k_find_list_end_loop find_list_end_loop];
    destruct (i <? length s); auto.
  1,3: rewrite snd_kbind; apply bind_eq; [reflexivity|]; intros x; rewrite snd_kbind, F; reflexivity.
  rewrite snd_tick, snd_kbind. apply bind_eq; [reflexivity|]. intros b. destruct (beq b dash); [|apply IH].
  rewrite snd_kbind. apply bind_eq; [reflexivity|]. intros x. rewrite snd_kbind, F. apply bind_eq; [reflexivity|].
  intros [|]; [apply IH|reflexivity].
Qed.
Lemma k_find_list_end_same s off f g : (forall o x, snd (f o x) = g o x) ->
  snd (k_find_list_end s off f) = find_list_end s off g.
Proof. intros F. apply k_find_list_end_loop_same, F. Qed.
Lemma k_find_segment_end_same s off : snd (k_find_segment_end s off) = find_segment_end s off.
Proof.
  unfold k_find_segment_end, find_segment_end. generalize (length s) as fuel. intros fuel. revert off.
  induction fuel as [|fuel IH]; intros i; cbn [k_find_segment_end_loop find_segment_end_loop]; destruct (i <? length s); auto.
  rewrite snd_tick, snd_kbind. apply bind_eq; [reflexivity|]. intros b. destruct (beq b dash); auto.
Qed.
Lemma k_find_segment_start_loop_same s i : snd (k_find_segment_start_loop s i) = find_segment_start_loop s i.
Proof.
  induction i as [|i IH]; cbn [k_find_segment_start_loop find_segment_start_loop]; rewrite snd_tick, snd_kbind;
    (apply bind_eq; [reflexivity|]); intros b; destruct (beq b dash); auto.
Qed.
Lemma k_find_segment_start_same s e : snd (k_find_segment_start s e) = find_segment_start s e.
Proof. destruct e; [reflexivity|]. apply k_find_segment_start_loop_same. Qed.

Lemma k_language_end_same s : snd (k_language_end s) = language_end s.
Proof. apply k_find_list_end_same. intros o x. destruct (o =? 0); [reflexivity|apply k_new_is_ok_same]. Qed.
Lemma k_language_same s : snd (k_language s) = NormalLangTag_language s.
Proof. unfold k_language. rewrite snd_kbind, k_language_end_same. reflexivity. Qed.
Lemma k_script_range_same s : snd (k_script_range s) = script_range s.
Proof.
  unfold k_script_range, script_range. rewrite snd_kbind, k_language_end_same. apply bind_eq; [reflexivity|]. intros e.
  cbv zeta. rewrite snd_kbind. erewrite k_find_list_end_same; [reflexivity|].
  intros o x. cbv beta. destruct (o =? e + 1); [apply k_new_is_ok_same|reflexivity].
Qed.
Lemma k_script_same s : snd (k_script s) = NormalLangTag_script s.
Proof. unfold k_script. rewrite snd_kbind, k_script_range_same. reflexivity. Qed.
Lemma k_region_range_same s : snd (k_region_range s) = region_range s.
Proof.
  unfold k_region_range, region_range. rewrite snd_kbind, k_script_range_same. apply bind_eq; [reflexivity|]. intros r.
  cbv zeta. rewrite snd_kbind. erewrite k_find_list_end_same; [reflexivity|].
  intros o x. cbv beta. destruct (o =? end_of r + 1); [apply k_new_is_ok_same|reflexivity].
Qed.
Lemma k_region_same s : snd (k_region s) = NormalLangTag_region s.
Proof. unfold k_region. rewrite snd_kbind, k_region_range_same. reflexivity. Qed.
Lemma k_variants_range_same s : snd (k_variants_range s) = variants_range s.
Proof.
  unfold k_variants_range, variants_range. rewrite snd_kbind, k_region_range_same. apply bind_eq; [reflexivity|]. intros r.
  cbv zeta. rewrite snd_kbind. erewrite k_find_list_end_same; [reflexivity|]. intros o x. apply k_new_is_ok_same.
Qed.
Lemma k_variants_same s : snd (k_variants s) = NormalLangTag_variants s.
Proof. unfold k_variants. rewrite snd_kbind, k_variants_range_same. reflexivity. Qed.
Lemma k_extensions_same s : snd (k_extensions s) = NormalLangTag_extensions s.
Proof.
  unfold k_extensions, NormalLangTag_extensions. rewrite snd_kbind. apply bind_eq; [|reflexivity].
  unfold k_extensions_range, extensions_range. rewrite snd_kbind, k_variants_range_same. apply bind_eq; [reflexivity|]. intros r.
  cbv zeta. rewrite snd_kbind. erewrite k_find_list_end_same; [reflexivity|]. intros o x. rewrite snd_kbind.
  apply bind_eq; [reflexivity|]. intros a. destruct (is_ok a); [reflexivity|apply k_new_is_ok_same].
Qed.
Lemma k_private_use_same s : snd (k_private_use s) = NormalLangTag_private_use s.
Proof.
  unfold k_private_use, NormalLangTag_private_use, private_use_offset. rewrite snd_kbind, k_variants_range_same.
  destruct (variants_range s) as [r| |]; [|reflexivity..]. cbn [bind free snd]. destruct (snd r <? length s); reflexivity.
Qed.

Lemma k_segment_next_same it : snd (k_segment_next it) = segment_next it.
Proof.
  unfold k_segment_next, segment_next. rewrite snd_tick. destruct (_ <? _); [|reflexivity].
  rewrite snd_kbind, k_find_segment_end_same. apply bind_eq; [reflexivity|]. intros e. rewrite snd_kbind. reflexivity.
Qed.
Lemma k_extensions_next_same it : snd (k_extensions_next it) = ExtensionsIter_next it.
Proof.
  unfold k_extensions_next, ExtensionsIter_next. rewrite snd_tick. destruct (_ <? _); [|reflexivity]. cbv zeta.
  rewrite snd_kbind. erewrite k_find_list_end_same; [|intros o x; apply k_new_is_ok_same].
  apply bind_eq; [reflexivity|]. intros e. rewrite snd_kbind. reflexivity.
Qed.
Lemma k_variants_next_same it : snd (k_variants_next it) = VariantsIter_next it.
Proof.
  unfold k_variants_next, VariantsIter_next. rewrite snd_tick. destruct (_ <? _); [|reflexivity].
  rewrite snd_kbind, k_find_segment_end_same. apply bind_eq; [reflexivity|]. intros e. rewrite snd_kbind. reflexivity.
Qed.
Lemma k_variants_next_back_same it : snd (k_variants_next_back it) = VariantsIter_next_back it.
Proof.
  unfold k_variants_next_back, VariantsIter_next_back. rewrite snd_tick. destruct (_ <? _); [|reflexivity].
  rewrite snd_kbind, k_find_segment_start_same. apply bind_eq; [reflexivity|]. intros e. rewrite snd_kbind. reflexivity.
Qed.
Lemma k_get_same s c : snd (k_get s c) = Extensions_get s c.
Proof.
  unfold k_get, Extensions_get. generalize (length s) as fuel. intros fuel. generalize 0, true.
  induction fuel as [|fuel IH]; intros i st; cbn [k_get_loop Extensions_get_loop]; destruct (i + 1 <? length s); auto.
  rewrite snd_tick, snd_kbind. apply bind_eq; [reflexivity|]. intros b. destruct st; [|apply IH].
  rewrite snd_kbind. apply bind_eq; [reflexivity|]. intros [|]; [|apply IH]. rewrite snd_kbind.
  erewrite k_find_list_end_same; [reflexivity|]. reflexivity.
Qed.

Lemma k_as_normal_same s : snd (k_as_normal s) = LangTag_as_normal s.
Proof. unfold k_as_normal. rewrite snd_kbind, k_new_same. reflexivity. Qed.
Lemma k_as_private_use_same s : snd (k_as_private_use s) = LangTag_as_private_use s.
Proof. unfold k_as_private_use. rewrite snd_kbind, k_new_same. reflexivity. Qed.
Lemma k_as_grandfathered_same s : snd (k_as_grandfathered s) = LangTag_as_grandfathered s.
Proof. unfold k_as_grandfathered. rewrite snd_kbind, k_grandfathered_new_same. reflexivity. Qed.
Lemma k_LangTag_language_same s : snd (k_LangTag_language s) = LangTag_language s.
Proof.
  unfold k_LangTag_language, LangTag_language. rewrite snd_kbind, k_new_same. apply bind_eq; [reflexivity|].
  intros [t|t]; rewrite snd_kbind; [rewrite k_language_same|rewrite k_grandfathered_new_same]; reflexivity.
Qed.
Lemma k_LangTag_same s :
  snd (k_LangTag_script s) = LangTag_script s /\ snd (k_LangTag_region s) = LangTag_region s /\
  snd (k_LangTag_variants s) = LangTag_variants s /\ snd (k_LangTag_extensions s) = LangTag_extensions s /\
  snd (k_LangTag_private_use s) = LangTag_private_use s.
Proof.
  repeat split; unfold k_LangTag_script, k_LangTag_region, k_LangTag_variants, k_LangTag_extensions, k_LangTag_private_use,
    k_normal, LangTag_script, LangTag_region, LangTag_variants, LangTag_extensions, LangTag_private_use;
    rewrite snd_kbind, k_as_normal_same; (apply bind_eq; [reflexivity|]); intros [t|]; try reflexivity;
    [apply k_script_same|apply k_region_same|apply k_variants_same|apply k_extensions_same|apply k_private_use_same].
Qed.
Lemma k_as_typed_same s : snd (k_as_typed s) = LangTag_as_typed s.
Proof.
  unfold k_as_typed, LangTag_as_typed. rewrite snd_kbind, k_new_same. apply bind_eq; [reflexivity|]. intros [t|t]; [reflexivity|].
  rewrite snd_kbind, k_new_same. apply bind_eq; [reflexivity|]. intros [u|u]; [reflexivity|].
  rewrite snd_kbind, k_grandfathered_new_same. apply bind_eq; [reflexivity|]. intros [g|g]; reflexivity.
Qed.

(** * 2. Bounds: functions *)

Lemma slice_exact s a b x : slice s a b = Ret x -> x = firstn (b - a) (skipn a s) /\ a <= b <= length s.
Proof.
  unfold slice. destruct (_ && _) eqn:E; [|discriminate]. rewrite !andb_true_iff, !Nat.leb_le in E. intros [= <-].
  split; [reflexivity|lia].
Qed.
Lemma slice_from_exact s a x : slice_from s a = Ret x -> x = skipn a s.
Proof. unfold slice_from. destruct (_ && _); [|discriminate]. intros [= <-]. reflexivity. Qed.

Lemma kbind_le {A B} (x : costed A) (f : A -> costed B) n m : fst x <= n -> (forall a, snd x = Ret a -> fst (f a) <= m) ->
  fst (kbind x f) <= n + m.
Proof. intros X F. unfold kbind. destruct (snd x) as [a| |]; cbn [fst]; [specialize (F a eq_refl)|..]; lia. Qed.
Lemma kbind_free {A B} (x : outcome A) (f : A -> costed B) m : (forall a, x = Ret a -> fst (f a) <= m) ->
  fst (kbind (free x) f) <= m.
Proof. intros F. apply (kbind_le (free x) f 0 m); [cbn; lia|exact F]. Qed.
Lemma kbind_map {A B} (x : costed A) (f : A -> outcome B) : fst (kbind x (fun a => free (f a))) = fst x.
Proof. unfold kbind. destruct (snd x); cbn; lia. Qed.

Lemma validate_cost d A s : advances d -> forall fuel i q, fst (k_validate_loop d A fuel s i q) <= length s - i.
Proof.
  intros D. induction fuel as [|fuel IH]; intros i q; cbn [k_validate_loop]; destruct (Nat.ltb_spec i (length s));
    try (cbn; lia). cbn [tick fst].
  destruct (d s i) as [[c n]|] eqn:E; [|cbn; lia]. apply D in E.
  destruct (push A q c) as [q'|]; [|cbn; lia]. specialize (IH (i + n) q'). lia.
Qed.
Lemma new_cost A s : fst (k_new A s) <= length s.
Proof.
  unfold k_new. rewrite (kbind_map _ (fun ok : bool => Ret (if ok then Ok s else Err s))).
  pose proof (validate_cost decode_utf8_char A s) as V. specialize (V decode_advances (length s) 0 initial). lia.
Qed.
Lemma new_is_ok_cost A s : fst (k_new_is_ok A s) <= length s.
Proof. unfold k_new_is_ok. rewrite (kbind_map _ (fun r => Ret (is_ok r))). apply new_cost. Qed.

Lemma eq_loop_cost a b n : forall i, fst (k_eq_loop a b n i) <= n.
Proof.
  induction n as [|n IH]; intros i; cbn [k_eq_loop]; [cbn; lia|]. cbn [tick fst]. apply le_n_S.
  apply kbind_free. intros x _. apply kbind_free. intros y _. destruct (negb _); [cbn; lia|apply IH].
Qed.
Lemma eq_cost a b : fst (k_eq a b) <= Nat.min (length a) (length b).
Proof.
  unfold k_eq. destruct (Nat.eqb_spec (length a) (length b)) as [E|E]; [|cbn; lia].
  pose proof (eq_loop_cost a b (length a) 0). lia.
Qed.
Lemma hash_cost H s : forall st, fst (k_hash H s st) = length s.
Proof. induction s as [|b s IH]; intros st; cbn [k_hash]; [reflexivity|]. cbn [tick fst length]. rewrite IH. reflexivity. Qed.
Lemma cmp_loop_cost a b : forall fuel i, fst (k_cmp_loop fuel a b i) <= S (Nat.min (length a) (length b) - i).
Proof.
  induction fuel as [|fuel IH]; intros i; cbn [k_cmp_loop]; [cbn; lia|]. cbn [tick fst]. apply le_n_S.
  destruct (Nat.leb_spec (length a) i); [destruct (length b <=? i); cbn; lia|].
  destruct (Nat.leb_spec (length b) i); [cbn; lia|].
  apply kbind_free. intros x _. apply kbind_free. intros y _. specialize (IH (i + 1)).
  destruct (byte_cmp _ _); cbn [free fst]; lia.
Qed.
Lemma cmp_cost a b : fst (k_cmp a b) <= S (Nat.min (length a) (length b)).
Proof. pose proof (cmp_loop_cost a b (S (length a)) 0). unfold k_cmp. lia. Qed.

Lemma try_from_cost s l : fst (k_try_from_loop l s) <= length l * S (length s).
Proof.
  induction l as [|g l IH]; cbn [k_try_from_loop]; [cbn; lia|]. cbn [tick fst length]. cbn [Nat.mul].
  match goal with |- context [fst (kbind ?x ?f)] =>
    assert (X : fst (kbind x f) <= length s + length l * S (length s)); [apply kbind_le|lia] end.
  - pose proof (eq_cost (Grandfathered_as_bytes g) s). lia.
  - intros [|] _; [cbn; lia|exact IH].
Qed.
Lemma grandfathered_new_cost s : fst (k_grandfathered_new s) <= 26 * S (length s).
Proof.
  unfold k_grandfathered_new.
  rewrite (kbind_map _ (fun r : result grandfathered bytes => Ret match r with Ok g => Ok g | Err _ => Err s end)).
  apply (try_from_cost s GRANDFATHERED).
Qed.

Lemma list_end_cost s f : (forall o x, fst (f o x) <= S (length x)) -> forall fuel i off e, off <= i ->
  fst (k_find_list_end_loop fuel s f i off e) <= 2 * (length s - i) + (i - off) + 2.
Proof.
  intros F. induction fuel as [|fuel IH]; intros i off e L; cbn [k_find_list_end_loop];
    destruct (Nat.ltb_spec i (length s)) as [I|I]; try (cbn [free fst]; lia).
  1,3: apply kbind_free; intros x X; rewrite (kbind_map _ (fun ok : bool => Ret (if ok then length s else e)));
    specialize (F off x); apply slice_from_exact in X; subst x; rewrite skipn_length in F; lia.
  cbn [tick fst].
  match goal with |- S ?x <= _ => assert (x <= 2 * (length s - i) + (i - off) + 1); [|lia] end.
  apply kbind_free. intros b _. destruct (beq b dash).
  - apply kbind_free. intros x X. specialize (F off x). apply slice_exact in X as [X Y]. subst x.
    rewrite firstn_length, skipn_length in F.
    match goal with |- fst (kbind ?x ?g) <= _ => pose proof (kbind_le x g (S (i - off)) (2 * (length s - (i + 1)) + 2)) as K end.
    rewrite Nat.sub_diag in K || idtac.
    assert (K1 : fst (f off (firstn (i - off) (skipn off s))) <= S (i - off)) by lia. specialize (K K1).
    match type of K with ?P -> _ => assert (K2 : P) end.
    { intros [|] _; [|cbn; lia]. specialize (IH (i + 1) (i + 1) i (le_n _)). lia. }
    specialize (K K2). lia.
  - specialize (IH (i + 1) off e). lia.
Qed.
Lemma find_list_end_cost s off f : (forall o x, fst (f o x) <= S (length x)) ->
  fst (k_find_list_end s off f) <= 2 * length s + 2.
Proof. intros F. pose proof (list_end_cost s f F (length s) off off off (le_n _)). unfold k_find_list_end. lia. Qed.

Lemma language_end_cost s : fst (k_language_end s) <= 2 * length s + 2.
Proof.
  apply find_list_end_cost. intros o x. destruct (o =? 0); [cbn; lia|]. pose proof (new_is_ok_cost ExtlangTag x). lia.
Qed.
Lemma language_cost s : fst (k_language s) <= 2 * length s + 2.
Proof. unfold k_language. rewrite (kbind_map _ (fun e => slice_to s e)). apply language_end_cost. Qed.

(** One more scan. *)
Lemma scan_cost {A B} (x : costed A) s (off : A -> nat) (f : A -> nat -> bytes -> costed bool) (g : A -> nat -> B) n :
  fst x <= n -> (forall a o y, fst (f a o y) <= S (length y)) ->
  fst (let$ a := x in let$ e := k_find_list_end s (off a) (f a) in free (Ret (g a e))) <= n + (2 * length s + 2).
Proof.
  intros X F. apply kbind_le; [exact X|]. intros a _. rewrite (kbind_map _ (fun e => Ret (g a e))).
  apply find_list_end_cost, F.
Qed.
Lemma script_range_cost s : fst (k_script_range s) <= 4 * length s + 4.
Proof.
  pose proof (scan_cost (k_language_end s) s (fun e => e + 1)
    (fun e i x => if i =? e + 1 then k_new_is_ok Script x else free (Ret false))
    (fun a e => (if negb (e =? a + 1) then Ok (a + 1, e) else Err a) : range_result) _ (language_end_cost s)) as K.
  unfold k_script_range. cbv zeta. refine (Nat.le_trans _ _ _ (K _) _); [|lia].
  intros a o y. cbv beta. destruct (o =? a + 1); [pose proof (new_is_ok_cost Script y)|cbn]; lia.
Qed.
Lemma script_cost s : fst (k_script s) <= 4 * length s + 4.
Proof.
  unfold k_script. rewrite (kbind_map _ (fun r : range_result => match r with Ok (a, b) => omap Some (slice s a b) | Err _ => Ret None end)).
  apply script_range_cost.
Qed.
Lemma region_range_cost s : fst (k_region_range s) <= 6 * length s + 6.
Proof.
  pose proof (scan_cost (k_script_range s) s (fun r => end_of r + 1)
    (fun r i x => if i =? end_of r + 1 then k_new_is_ok Region x else free (Ret false))
    (fun r e => (if negb (e =? end_of r + 1) then Ok (end_of r + 1, e) else Err (end_of r)) : range_result) _ (script_range_cost s)) as K.
  unfold k_region_range. cbv zeta. refine (Nat.le_trans _ _ _ (K _) _); [|lia].
  intros a o y. cbv beta. destruct (o =? end_of a + 1); [pose proof (new_is_ok_cost Region y)|cbn]; lia.
Qed.
Lemma region_cost s : fst (k_region s) <= 6 * length s + 6.
Proof.
  unfold k_region. rewrite (kbind_map _ (fun r : range_result => match r with Ok (a, b) => omap Some (slice s a b) | Err _ => Ret None end)).
  apply region_range_cost.
Qed.
Lemma variants_range_cost s : fst (k_variants_range s) <= 8 * length s + 8.
Proof.
  pose proof (scan_cost (k_region_range s) s (fun r => end_of r + 1) (fun r i x => k_new_is_ok Variant x)
    (fun r e => if e =? end_of r + 1 then (end_of r, end_of r) else (end_of r + 1, e)) _ (region_range_cost s)) as K.
  unfold k_variants_range. cbv zeta. refine (Nat.le_trans _ _ _ (K _) _); [|lia].
  intros a o y. pose proof (new_is_ok_cost Variant y). lia.
Qed.
Lemma variants_cost s : fst (k_variants s) <= 8 * length s + 8.
Proof. unfold k_variants. rewrite (kbind_map _ (fun r => slice s (fst r) (snd r))). apply variants_range_cost. Qed.
Lemma extensions_cost s : fst (k_extensions s) <= 10 * length s + 10.
Proof.
  unfold k_extensions. rewrite (kbind_map _ (fun r => slice s (fst r) (snd r))).
  pose proof (scan_cost (k_variants_range s) s (fun r => snd r + 1) (fun r i x =>
    let$ a := free (Singleton_from_string x) in if is_ok a then free (Ret true) else k_new_is_ok ExtensionSubtag x)
    (fun r e => if e =? snd r + 1 then (snd r, snd r) else (snd r + 1, e)) _ (variants_range_cost s)) as K.
  unfold k_extensions_range. cbv zeta. refine (Nat.le_trans _ _ _ (K _) _); [|lia].
  intros a o y. apply kbind_free. intros b _. destruct (is_ok b); [cbn; lia|].
  pose proof (new_is_ok_cost ExtensionSubtag y). lia.
Qed.
Lemma private_use_cost s : fst (k_private_use s) <= 8 * length s + 8.
Proof.
  unfold k_private_use.
  rewrite (kbind_map _ (fun r => if snd r <? length s then omap Some (slice_from s (snd r + 1)) else Ret None)).
  apply variants_range_cost.
Qed.
Lemma get_cost s c : fst (k_get s c) <= 3 * length s + 2.
Proof.
  assert (G : forall fuel i st, fst (k_get_loop fuel s c i st) <= (length s - i) + (2 * length s + 2)).
  { induction fuel as [|fuel IH]; intros i st; cbn [k_get_loop]; destruct (Nat.ltb_spec (i + 1) (length s));
      try (cbn; lia). cbn [tick fst].
    match goal with |- S ?x <= _ => assert (x <= length s - (i + 1) + (2 * length s + 2)); [|lia] end.
    apply kbind_free. intros b _. destruct st; [|apply IH]. apply kbind_free. intros [|] _; [|apply IH].
    rewrite (kbind_map _ (fun e => omap Some (slice s i e))).
    refine (Nat.le_trans _ (2 * length s + 2) _ _ _); [|lia]. apply find_list_end_cost. intros o x. cbn. lia. }
  specialize (G (length s) 0 true). unfold k_get. lia.
Qed.

Lemma as_normal_cost s : fst (k_as_normal s) <= length s.
Proof. unfold k_as_normal. rewrite (kbind_map _ (fun r => Ret (ok r))). apply new_cost. Qed.
Lemma normal_cost {A} (f : bytes -> costed A) x n s : fst (f s) <= n -> fst (k_normal f x s) <= length s + n.
Proof.
  intros F. unfold k_normal. apply kbind_le; [apply as_normal_cost|]. intros [t|] E; [|cbn; lia].
  rewrite k_as_normal_same in E. unfold LangTag_as_normal, new in E.
  destruct (validate Langtag s) as [[|]| |]; try discriminate E. injection E as <-. exact F.
Qed.
Lemma LangTag_language_cost s : fst (k_LangTag_language s) <= 27 * length s + 26.
Proof.
  unfold k_LangTag_language. replace (27 * length s + 26) with (length s + (26 * S (length s))) by lia.
  apply kbind_le; [apply new_cost|]. intros [t|t] E.
  - rewrite (kbind_map _ (fun l => Ret (Some l))). rewrite k_new_same in E. unfold new in E.
    destruct (validate Langtag s) as [[|]| |]; try discriminate E. injection E as <-. pose proof (language_cost s). lia.
  - rewrite (kbind_map _ (fun g => Ret match g with Ok t => Grandfathered_language t | Err _ => None end)).
    apply grandfathered_new_cost.
Qed.
Lemma as_typed_cost s : fst (k_as_typed s) <= 28 * length s + 26.
Proof.
  unfold k_as_typed. replace (28 * length s + 26) with (length s + (length s + (26 * S (length s)))) by lia.
  apply kbind_le; [apply new_cost|]. intros [t|t] _; [cbn; lia|].
  apply kbind_le; [apply new_cost|]. intros [u|u] _; [cbn; lia|].
  rewrite <- (Nat.add_0_r (26 * _)). apply kbind_le; [apply grandfathered_new_cost|]. intros [g|g] _; cbn; lia.
Qed.

Lemma langtag_cost s :
  (snd (k_LangTag_language s) = LangTag_language s /\ fst (k_LangTag_language s) <= 27 * length s + 26) /\
  (snd (k_LangTag_script s) = LangTag_script s /\ fst (k_LangTag_script s) <= 5 * length s + 4) /\
  (snd (k_LangTag_region s) = LangTag_region s /\ fst (k_LangTag_region s) <= 7 * length s + 6) /\
  (snd (k_LangTag_variants s) = LangTag_variants s /\ fst (k_LangTag_variants s) <= 9 * length s + 8) /\
  (snd (k_LangTag_extensions s) = LangTag_extensions s /\ fst (k_LangTag_extensions s) <= 11 * length s + 10) /\
  (snd (k_LangTag_private_use s) = LangTag_private_use s /\ fst (k_LangTag_private_use s) <= 9 * length s + 8) /\
  (snd (k_as_normal s) = LangTag_as_normal s /\ fst (k_as_normal s) <= length s) /\
  (snd (k_as_private_use s) = LangTag_as_private_use s /\ fst (k_as_private_use s) <= length s) /\
  (snd (k_as_grandfathered s) = LangTag_as_grandfathered s /\ fst (k_as_grandfathered s) <= 26 * S (length s)) /\
  (snd (k_as_typed s) = LangTag_as_typed s /\ fst (k_as_typed s) <= 28 * length s + 26).
Proof.
  pose proof (k_LangTag_same s) as (S1 & S2 & S3 & S4 & S5).
  pose proof (normal_cost k_script None _ s (script_cost s)) as N1.
  pose proof (normal_cost k_region None _ s (region_cost s)) as N2.
  pose proof (normal_cost k_variants Variants_EMPTY _ s (variants_cost s)) as N3.
  pose proof (normal_cost k_extensions Extensions_EMPTY _ s (extensions_cost s)) as N4.
  pose proof (normal_cost k_private_use None _ s (private_use_cost s)) as N5.
  split; [split; [apply k_LangTag_language_same|apply LangTag_language_cost]|].
  split; [split; [exact S1|unfold k_LangTag_script; lia]|]. split; [split; [exact S2|unfold k_LangTag_region; lia]|].
  split; [split; [exact S3|unfold k_LangTag_variants; lia]|]. split; [split; [exact S4|unfold k_LangTag_extensions; lia]|].
  split; [split; [exact S5|unfold k_LangTag_private_use; lia]|].
  split; [split; [apply k_as_normal_same|apply as_normal_cost]|].
  split; [split; [apply k_as_private_use_same|]|].
  { unfold k_as_private_use. rewrite (kbind_map _ (fun r => Ret (ok r))). apply new_cost. }
  split; [split; [apply k_as_grandfathered_same|]|split; [apply k_as_typed_same|apply as_typed_cost]].
  unfold k_as_grandfathered. rewrite (kbind_map _ (fun r => Ret (ok r))). apply grandfathered_new_cost.
Qed.

(** * 3. Bounds: iterators *)

Lemma segment_end_cost s : forall fuel i, fst (k_find_segment_end_loop fuel s i) <= length s - i /\
  forall e, snd (k_find_segment_end_loop fuel s i) = Ret e -> i <= e /\ fst (k_find_segment_end_loop fuel s i) <= S e - i.
Proof.
  induction fuel as [|fuel IH]; intros i; cbn [k_find_segment_end_loop]; destruct (Nat.ltb_spec i (length s)) as [L|L];
    cbn [free tick fst snd]; try (split; [lia|intros e [= <-]; lia]); try (split; [lia|discriminate]).
  destruct (index s i) as [b| |]; cbn [kbind free fst snd]; try (split; [lia|discriminate]).
  destruct (beq b dash); cbn [free fst snd]; [split; [lia|intros e [= <-]; lia]|].
  destruct (IH (i + 1)) as [A B]. split; [lia|]. intros e E. specialize (B e E). lia.
Qed.

Lemma segment_next_cost it : fst (k_segment_next it) <= S (length (it_data it) - it_offset it) /\
  forall x it', snd (k_segment_next it) = Ret (Some x, it') ->
    it_data it' = it_data it /\ it_offset it < it_offset it' <= S (length (it_data it)) /\
    fst (k_segment_next it) <= S (it_offset it' - it_offset it).
Proof.
  unfold k_segment_next. cbn [tick fst snd]. destruct (Nat.ltb_spec (it_offset it) (length (it_data it))) as [L|L];
    cbn [free fst snd]; [|split; [lia|discriminate]].
  unfold k_find_segment_end. destruct (segment_end_cost (it_data it) (length (it_data it)) (it_offset it)) as [A B].
  destruct (k_find_segment_end_loop _ _ _) as [n [e| |]]; cbn [kbind fst snd free] in *; try (split; [lia|discriminate]).
  destruct (slice _ _ _) as [y| |] eqn:E; cbn [kbind fst snd free] in *; try (split; [lia|discriminate]).
  split; [lia|]. intros x it' [= <- <-]. cbn [it_data it_offset]. specialize (B e eq_refl). apply slice_exact in E as [_ E].
  repeat split; lia.
Qed.
Lemma segment_next_none it it' : snd (k_segment_next it) = Ret (None, it') -> it' = it /\ fst (k_segment_next it) = 1.
Proof.
  unfold k_segment_next. cbn [tick fst snd]. destruct (_ <? _); cbn [free fst snd]; [|intros [= <-]; split; reflexivity].
  destruct (k_find_segment_end _ _) as [n [e| |]]; cbn [kbind fst snd free]; try discriminate.
  destruct (slice _ _ _); cbn; discriminate.
Qed.

Lemma segment_calls_cost : forall k it, fst (k_calls k_segment_next k it) <= (S (length (it_data it)) - it_offset it) + k.
Proof.
  induction k as [|k IH]; intros it; cbn [k_calls]; [cbn; lia|].
  destruct (segment_next_cost it) as [A B]. unfold kbind at 1.
  destruct (snd (k_segment_next it)) as [[[x|] it']| |] eqn:E; cbn [fst snd free]; try lia.
  - specialize (B x it' eq_refl) as (D & O & C). rewrite (kbind_map _ (fun rs => Ret (Some x :: rs))).
    specialize (IH it'). rewrite D in IH. lia.
  - apply segment_next_none in E as [-> E]. rewrite (kbind_map _ (fun rs => Ret (None :: rs))). specialize (IH it). lia.
Qed.
Lemma segment_collect_cost : forall n it, fst (k_collect k_segment_next n it) <= 2 * (S (length (it_data it)) - it_offset it) + 1.
Proof.
  induction n as [|n IH]; intros it; cbn [k_collect]; [cbn; lia|].
  destruct (segment_next_cost it) as [A B]. unfold kbind at 1.
  destruct (snd (k_segment_next it)) as [[[x|] it']| |] eqn:E; cbn [fst snd free]; try lia.
  specialize (B x it' eq_refl) as (D & O & C). rewrite (kbind_map _ (fun xs => Ret (x :: xs))).
  specialize (IH it'). rewrite D in IH. lia.
Qed.

(** Variants: the potential is what lies ahead of the front and before the back. *)
Lemma segment_start_cost s : forall i, fst (k_find_segment_start_loop s i) <= S i /\
  forall b, snd (k_find_segment_start_loop s i) = Ret b -> b <= S i /\ fst (k_find_segment_start_loop s i) <= S i - (b - 1).
Proof.
  induction i as [|i [A B]]; cbn [k_find_segment_start_loop tick fst snd];
    destruct (index s _) as [b| |]; cbn [kbind free fst snd]; try (split; [lia|discriminate]);
    destruct (beq b dash); cbn [free fst snd]; try (split; [lia|intros e [= <-]; lia]).
  split; [lia|]. intros e E. specialize (B e E). lia.
Qed.
Definition variants_potential (it : viter) : nat := (S (length (v_data it)) - v_offset it) + v_end it.
Lemma variants_next_cost it : fst (k_variants_next it) <= 1 + variants_potential it /\
  forall r it', snd (k_variants_next it) = Ret (r, it') ->
    v_data it' = v_data it /\ fst (k_variants_next it) + variants_potential it' <= 1 + variants_potential it.
Proof.
  unfold k_variants_next, variants_potential. cbn [tick fst snd]. destruct (Nat.ltb_spec (v_offset it) (v_end it)) as [L|L];
    cbn [free fst snd]; [|split; [lia|intros r it' [= <- <-]; split; [reflexivity|lia]]].
  unfold k_find_segment_end. destruct (segment_end_cost (v_data it) (length (v_data it)) (v_offset it)) as [A B].
  destruct (k_find_segment_end_loop _ _ _) as [n [e| |]]; cbn [kbind fst snd free] in *; try (split; [lia|discriminate]).
  destruct (slice _ _ _) as [y| |] eqn:E; cbn [kbind fst snd free] in *; try (split; [lia|discriminate]).
  split; [lia|]. intros x it' [= <- <-]. cbn [v_data v_offset v_end]. specialize (B e eq_refl). apply slice_exact in E as [_ E].
  split; [reflexivity|lia].
Qed.
Lemma variants_next_back_cost it : fst (k_variants_next_back it) <= 1 + variants_potential it /\
  forall r it', snd (k_variants_next_back it) = Ret (r, it') ->
    v_data it' = v_data it /\ fst (k_variants_next_back it) + variants_potential it' <= 1 + variants_potential it.
Proof.
  unfold k_variants_next_back, variants_potential. cbn [tick fst snd].
  destruct (Nat.ltb_spec (v_offset it) (v_end it)) as [L|L];
    cbn [free fst snd]; [|split; [lia|intros r it' [= <- <-]; split; [reflexivity|lia]]].
  unfold k_find_segment_start. destruct (v_end it) as [|i] eqn:V; [lia|].
  destruct (segment_start_cost (v_data it) i) as [A B].
  destruct (k_find_segment_start_loop _ _) as [n [e| |]]; cbn [kbind fst snd free] in *; try (split; [lia|discriminate]).
  destruct (slice _ _ _) as [y| |] eqn:E; cbn [kbind fst snd free] in *; try (split; [lia|discriminate]).
  split; [lia|]. intros x it' [= <- <-]. cbn [v_data v_offset v_end]. specialize (B e eq_refl). apply slice_exact in E as [_ E].
  split; [reflexivity|]. destruct (Nat.ltb_spec 0 e); lia.
Qed.
Lemma variants_calls_cost : forall ops it,
  fst (k_calls_de k_variants_next k_variants_next_back ops it) <= variants_potential it + length ops.
Proof.
  induction ops as [|op ops IH]; intros it; cbn [k_calls_de length]; [cbn; lia|].
  assert (K : let x := match op with Front => k_variants_next it | Back => k_variants_next_back it end in
    fst x <= 1 + variants_potential it /\ forall r it', snd x = Ret (r, it') ->
      v_data it' = v_data it /\ fst x + variants_potential it' <= 1 + variants_potential it).
  { destruct op; cbv zeta; [apply variants_next_cost|apply variants_next_back_cost]. }
  cbv zeta in K. destruct K as [A B]. unfold kbind at 1.
  set (x := match op with Front => k_variants_next it | Back => k_variants_next_back it end) in *.
  destruct (snd x) as [[r it']| |] eqn:E; cbn [fst snd free]; try lia.
  specialize (B r it' eq_refl) as [D C]. rewrite (kbind_map _ (fun rs => Ret (r :: rs))). specialize (IH it'). lia.
Qed.

(** Extensions.  A scan that stops before the end has read one more subtag than it returns, which is bounded for the
    texts whose subtags are: [runs k s] if there are at most [k] bytes before the first '-' of [s], and at most 8
    between two. *)
Fixpoint runs (k : nat) (s : bytes) : bool :=
  match s with
  | [] => true
  | b :: s' => if beq b dash then runs 8 s' else match k with S k' => runs k' s' | O => false end
  end.
Lemma runs_at k s i b : i < length s -> index s i = Ret b -> runs k (skipn i s) = true ->
  if beq b dash then runs 8 (skipn (i + 1) s) = true else exists k', k = S k' /\ runs k' (skipn (i + 1) s) = true.
Proof.
  intros L E. unfold index in E. destruct (nth_error s i) as [c|] eqn:N; [|discriminate E]. injection E as ->.
  assert (S : skipn i s = b :: skipn (i + 1) s).
  { clear L k. revert i N. induction s as [|x s IH]; intros [|i] N; try discriminate N.
    - injection N as ->. reflexivity.
    - cbn [skipn plus]. apply IH, N. }
  rewrite S. cbn [runs]. destruct (beq b dash); [auto|]. destruct k as [|k']; [discriminate|eauto].
Qed.

Lemma slice_from_le s off x : slice_from s off = Ret x -> off <= length s.
Proof. unfold slice_from, slice. destruct (_ <=? _) eqn:E; cbn [andb]; [|discriminate].
  intros _. apply Nat.leb_le in E. exact E.
Qed.

Lemma runs_list_end_cost s f : (forall o x, fst (f o x) <= S (length x)) -> forall fuel i off e,
  off <= i <= off + 8 -> off <= e + 1 -> e <= off -> runs (off + 8 - i) (skipn i s) = true -> forall r,
  snd (k_find_list_end_loop fuel s f i off e) = Ret r ->
  e <= r /\ fst (k_find_list_end_loop fuel s f i off e) <= 2 * (r + 10 - i) + (i - off) + 2.
Proof.
  intros F. induction fuel as [|fuel IH]; intros i off e L M M' R r; cbn [k_find_list_end_loop];
    destruct (Nat.ltb_spec i (length s)) as [I|I]; try (cbn [free snd]; discriminate).
  1,3: destruct (slice_from s off) as [x| |] eqn:X; cbn [kbind free fst snd]; try discriminate;
    specialize (F off x); pose proof (slice_from_le _ _ _ X) as Y; apply slice_from_exact in X; subst x;
    rewrite skipn_length in F;
    destruct (f off _) as [n [[|]| |]]; cbn [kbind free fst snd] in *; try discriminate; intros [= <-]; lia.
  cbn [tick fst snd]. destruct (index s i) as [b| |] eqn:B; cbn [kbind free fst snd]; try discriminate.
  pose proof (runs_at _ _ _ _ I B R) as R'. destruct (beq b dash).
  - destruct (slice s off i) as [x| |] eqn:X; cbn [kbind free fst snd]; try discriminate.
    specialize (F off x). apply slice_exact in X as [X Y]. subst x. rewrite firstn_length, skipn_length in F.
    destruct (f off _) as [n [[|]| |]]; cbn [kbind free fst snd] in *; try discriminate; intros E.
    + replace 8 with (i + 1 + 8 - (i + 1)) in R' by lia.
      specialize (IH (i + 1) (i + 1) i ltac:(lia) ltac:(lia) ltac:(lia) R' r E). lia.
    + injection E as <-. lia.
  - intros E. destruct R' as (k & K & R'). replace k with (off + 8 - (i + 1)) in R' by lia.
    specialize (IH (i + 1) off e ltac:(lia) ltac:(lia) ltac:(lia) R' r E). lia.
Qed.

Lemma runs_more s : forall k k', runs k s = true -> k <= k' -> runs k' s = true.
Proof.
  induction s as [|b s IH]; intros k k' R L; [reflexivity|]. cbn [runs] in *. destruct (beq b dash); [exact R|].
  destruct k; [discriminate R|]. destruct k'; [lia|]. apply (IH k); [exact R|lia].
Qed.
Lemma runs_skip s : forall k j, runs k s = true -> k <= 8 -> runs 8 (skipn j s) = true.
Proof.
  induction s as [|b s IH]; intros k [|j] R L; try reflexivity; [apply (runs_more _ k); assumption|].
  cbn [runs skipn] in *. destruct (beq b dash); [apply (IH 8); [exact R|lia]|].
  destruct k; [discriminate R|]. apply (IH k); [exact R|lia].
Qed.

Lemma extensions_next_cost it : runs 8 (it_data it) = true -> fst (k_extensions_next it) <= 2 * length (it_data it) + 3 /\
  forall r it', snd (k_extensions_next it) = Ret (r, it') ->
  match r with
  | None => it' = it /\ fst (k_extensions_next it) = 1
  | Some _ => it_data it' = it_data it /\ it_offset it + 3 <= it_offset it' <= S (length (it_data it)) /\
              fst (k_extensions_next it) <= 2 * (it_offset it' - it_offset it) + 19
  end.
Proof.
  intros R. unfold k_extensions_next. cbn [tick fst snd]. destruct (it_offset it <? length (it_data it)); cbn [free fst snd].
  2:{ split; [lia|]. intros r it' [= <- <-]. auto. }
  assert (F : forall (o : nat) x, fst (k_new_is_ok ExtensionSubtag x) <= S (length x)).
  { intros _ x. pose proof (new_is_ok_cost ExtensionSubtag x). lia. }
  pose proof (find_list_end_cost (it_data it) (it_offset it + 2) _ F) as A.
  pose proof (runs_list_end_cost (it_data it) _ F (length (it_data it)) (it_offset it + 2) (it_offset it + 2)
    (it_offset it + 2) ltac:(lia) ltac:(lia) ltac:(lia)) as B.
  replace (it_offset it + 2 + 8 - (it_offset it + 2)) with 8 in B by lia. specialize (B (runs_skip _ 8 _ R (le_n _))).
  unfold k_find_list_end in *.
  destruct (k_find_list_end_loop _ _ _ _ _ _) as [n [e| |]]; cbn [kbind fst snd free] in *; try (split; [lia|discriminate]).
  destruct (slice _ _ _) as [y| |] eqn:E; cbn [kbind fst snd free] in *; try (split; [lia|discriminate]).
  split; [lia|]. intros r it' [= <- <-]. cbn [it_data it_offset]. specialize (B e eq_refl). apply slice_exact in E as [_ E].
  repeat split; lia.
Qed.
(** [k] calls, after which nothing is left or every call advanced by three bytes or more. *)
Lemma extensions_calls_cost : forall k it, runs 8 (it_data it) = true ->
  fst (k_calls k_extensions_next k it) <= 9 * (S (length (it_data it)) - it_offset it) + 2 * length (it_data it) + 3 + k.
Proof.
  induction k as [|k IH]; intros it R; cbn [k_calls]; [cbn; lia|].
  destruct (extensions_next_cost it R) as [A B]. unfold kbind at 1.
  destruct (snd (k_extensions_next it)) as [[[x|] it']| |] eqn:E; cbn [fst snd free]; try lia.
  - specialize (B _ _ eq_refl) as (D & O & C). rewrite (kbind_map _ (fun rs => Ret (Some x :: rs))).
    specialize (IH it'). rewrite D in IH. specialize (IH R). lia.
  - specialize (B _ _ eq_refl) as [-> C]. rewrite (kbind_map _ (fun rs => Ret (None :: rs))). specialize (IH it R). lia.
Qed.

Lemma runs_app x s : forallb is_alnum x = true -> forall k, length x <= k -> runs k (x ++ dash :: s) = runs 8 s /\ runs k x = true.
Proof.
  induction x as [|b x IH]; intros A k L; cbn [app runs length forallb] in *; [split; reflexivity|].
  apply andb_true_iff in A as [B A]. destruct (beq b dash) eqn:D.
  - exfalso. destruct b; discriminate.
  - destruct k; [lia|]. apply IH; [exact A|lia].
Qed.
Lemma runs_join l : forallb seg_ok l = true -> runs 8 (join l) = true.
Proof.
  induction l as [|x l IH]; [reflexivity|]. cbn [forallb]. intros H. apply andb_true_iff in H as [X H].
  apply sized_spec in X. destruct X as [X Y].
  destruct l; cbn [join].
  - apply (runs_app x []); [exact Y|lia].
  - rewrite (proj1 (runs_app x _ Y 8 ltac:(lia))). apply IH, H.
Qed.
Lemma extensions_runs s : accepted ExtensionsT s -> runs 8 s = true.
Proof.
  intros A. apply accepted_extensions in A as (l & L & ->). apply runs_join, segs_extensions, L.
Qed.

(** * 4. Callers' loops *)

Lemma k_calls_same {I} (kn : I -> costed (option bytes * I)) next : (forall it, snd (kn it) = next it) ->
  forall k it, snd (k_calls kn k it) = calls next k it.
Proof.
  intros N. induction k as [|k IH]; intros it; cbn [k_calls calls]; [reflexivity|].
  rewrite snd_kbind, N. apply bind_eq; [reflexivity|]. intros [r it']. rewrite snd_kbind. cbn [fst snd]. rewrite IH. reflexivity.
Qed.
Lemma k_calls_de_same {I} (kn kb : I -> costed (option bytes * I)) next next_back :
  (forall it, snd (kn it) = next it) -> (forall it, snd (kb it) = next_back it) ->
  forall ops it, snd (k_calls_de kn kb ops it) = calls_de next next_back ops it.
Proof.
  intros N B. induction ops as [|op ops IH]; intros it; cbn [k_calls_de calls_de]; [reflexivity|].
  destruct op; rewrite snd_kbind, ?N, ?B; (apply bind_eq; [reflexivity|]); intros [r it']; rewrite snd_kbind; cbn [fst snd];
    rewrite IH; reflexivity.
Qed.
