(** Every loop ends, on any input whatsoever (C37), and every iterator is finite and fused (C40). *)
From Verif Require Import Base GrammarRs Validate Utils Grandfathered Normal LangTag Newtypes Derived Spec
  Observe RegexEquiv Accept AcceptTag Case CaseTag Direct Parse Scan Access Iter Kind.

Lemma t_ret {A} (a : A) : terminates (Ret a). Proof. discriminate. Qed.
Lemma t_panic {A} : terminates (@Panic A). Proof. discriminate. Qed.
Lemma t_bind {A B} (x : outcome A) (f : A -> outcome B) : terminates x -> (forall a, terminates (f a)) ->
  terminates (bind x f).
Proof. unfold terminates. destruct x; cbn; auto. discriminate. Qed.
Lemma t_omap {A B} (x : outcome A) (f : A -> B) : terminates x -> terminates (omap f x).
Proof. intros H. apply t_bind; [exact H|]. intros. apply t_ret. Qed.
Lemma t_index s i : terminates (index s i).
Proof. unfold index. destruct (nth_error s i); discriminate. Qed.
Lemma t_slice s a b : terminates (slice s a b).
Proof. unfold slice. destruct (_ && _); discriminate. Qed.
Lemma t_slice_from s a : terminates (slice_from s a).
Proof. unfold slice_from. destruct (_ && _); discriminate. Qed.
Lemma t_slice_to s a : terminates (slice_to s a).
Proof. unfold slice_to. destruct (_ && _); discriminate. Qed.
#[export] Hint Resolve t_ret t_panic t_index t_slice t_slice_from t_slice_to t_omap : term.

(** * 1. Validation, for any automaton and any decoder that advances *)

Lemma decode_advances : advances decode_utf8_char.
Proof.
  intros s i c n. unfold decode_utf8_char.
  repeat match goal with |- context [match ?x with _ => _ end] => destruct x end; intros E; try discriminate;
    injection E as _ <-; lia.
Qed.

Lemma t_validate_loop d A s : advances d -> forall fuel i q, length s - i <= fuel ->
  terminates (validate_loop d A fuel s i q).
Proof.
  intros Hd fuel. induction fuel as [|fuel IH]; intros i q L; cbn [validate_loop];
    destruct (Nat.ltb_spec i (length s)); auto with term; [lia|].
  destruct (d s i) as [[c n]|] eqn:E; auto with term. destruct (push A q c); auto with term.
  apply IH. apply Hd in E. lia.
Qed.

Lemma t_validate_with d A s : advances d -> terminates (validate_with d A s).
Proof. intros H. apply t_validate_loop; [exact H|lia]. Qed.
Lemma t_new A s : terminates (new A s).
Proof. apply t_bind; [apply t_validate_with, decode_advances|auto with term]. Qed.
Lemma t_new_is_ok A s : terminates (new_is_ok A s).
Proof. apply t_bind; [apply t_new|auto with term]. Qed.
#[export] Hint Resolve t_new t_new_is_ok : term.

(** * 2. Scans *)

Lemma t_find_list_end_loop s f : (forall o x, terminates (f o x)) -> forall fuel i off e, length s - i <= fuel ->
  terminates (find_list_end_loop fuel s f i off e).
Proof.
  intros Hf fuel. induction fuel as [|fuel IH]; intros i off e L; cbn [find_list_end_loop];
    destruct (Nat.ltb_spec i (length s)); try lia;
    try (apply t_bind; [auto with term|intros]; apply t_bind; [auto with term|intros]; auto with term).
  apply t_bind; [auto with term|intros b]. destruct (beq b dash); [|apply IH; lia].
  apply t_bind; [auto with term|intros x]. apply t_bind; [apply Hf|intros k]. destruct k; [apply IH; lia|auto with term].
Qed.

Lemma t_find_list_end s off f : (forall o x, terminates (f o x)) -> terminates (find_list_end s off f).
Proof. intros H. apply t_find_list_end_loop; [exact H|lia]. Qed.

Lemma t_find_segment_end s off : terminates (find_segment_end s off).
Proof.
  unfold find_segment_end.
  enough (forall fuel i, length s - i <= fuel -> terminates (find_segment_end_loop fuel s i)) as H by (apply H; lia).
  induction fuel as [|fuel IH]; intros i L; cbn [find_segment_end_loop];
    destruct (Nat.ltb_spec i (length s)); auto with term; [lia|].
  apply t_bind; [auto with term|intros b]. destruct (beq b dash); auto with term. apply IH. lia.
Qed.

Lemma t_find_segment_start s e : terminates (find_segment_start s e).
Proof.
  destruct e as [|i]; [apply t_ret|]. cbn [find_segment_start].
  induction i as [|i IH]; cbn [find_segment_start_loop]; (apply t_bind; [auto with term|intros b]);
    destruct (beq b dash); auto with term.
Qed.

Lemma t_singleton s : terminates (Singleton_from_string s).
Proof.
  unfold Singleton_from_string. destruct (length s =? 1); auto with term.
  destruct (decode_utf8_char s 0) as [[c n]|]; auto with term.
Qed.
#[export] Hint Resolve t_find_list_end t_find_segment_end t_find_segment_start t_singleton : term.

(** * 3. Accessors *)

Lemma t_language_end s : terminates (language_end s).
Proof. apply t_find_list_end. intros o x. destruct (o =? 0); auto with term. Qed.
Lemma t_language s : terminates (NormalLangTag_language s).
Proof. apply t_bind; [apply t_language_end|auto with term]. Qed.
Lemma t_script_range s : terminates (script_range s).
Proof.
  apply t_bind; [apply t_language_end|intros e]. apply t_bind; [|auto with term].
  apply t_find_list_end. intros o x. destruct (o =? e + 1); auto with term.
Qed.
Lemma t_region_range s : terminates (region_range s).
Proof.
  apply t_bind; [apply t_script_range|intros r]. apply t_bind; [|auto with term].
  apply t_find_list_end. intros o x. destruct (o =? end_of r + 1); auto with term.
Qed.
Lemma t_variants_range s : terminates (variants_range s).
Proof.
  apply t_bind; [apply t_region_range|intros r]. apply t_bind; auto with term.
Qed.
Lemma t_extensions_range s : terminates (extensions_range s).
Proof.
  apply t_bind; [apply t_variants_range|intros r]. apply t_bind; [|auto with term].
  apply t_find_list_end. intros o x. apply t_bind; [auto with term|intros a]. destruct (is_ok a); auto with term.
Qed.
Lemma t_range_opt (r : outcome range_result) s : terminates r ->
  terminates (let! r := r in match r with Ok (a, b) => omap Some (slice s a b) | Err _ => Ret None end).
Proof. intros H. apply t_bind; [exact H|intros [[a b]|e]; auto with term]. Qed.
Lemma t_script s : terminates (NormalLangTag_script s).
Proof. apply t_range_opt, t_script_range. Qed.
Lemma t_region s : terminates (NormalLangTag_region s).
Proof. apply t_range_opt, t_region_range. Qed.
Lemma t_variants s : terminates (NormalLangTag_variants s).
Proof. apply t_bind; [apply t_variants_range|auto with term]. Qed.
Lemma t_extensions s : terminates (NormalLangTag_extensions s).
Proof. apply t_bind; [apply t_extensions_range|auto with term]. Qed.
Lemma t_private_use s : terminates (NormalLangTag_private_use s).
Proof.
  apply t_bind; [apply t_bind; [apply t_variants_range|auto with term]|]. intros [i|]; auto with term.
Qed.
Lemma t_private_use_subtags s : terminates (NormalLangTag_private_use_subtags s).
Proof. apply t_bind; [apply t_private_use|auto with term]. Qed.

Lemma t_grandfathered s : terminates (Grandfathered_new s).
Proof. rewrite Grandfathered_new_spec. auto with term. Qed.
#[export] Hint Resolve t_language t_script t_region t_variants t_extensions t_private_use t_private_use_subtags
  t_grandfathered : term.

Lemma t_as_normal s : terminates (LangTag_as_normal s). Proof. unfold LangTag_as_normal. auto with term. Qed.
#[export] Hint Resolve t_as_normal : term.

Lemma t_langtag s :
  terminates (LangTag_as_typed s) /\ terminates (LangTag_kind s) /\ terminates (LangTag_language s) /\
  terminates (LangTag_script s) /\ terminates (LangTag_region s) /\ terminates (LangTag_variants s) /\
  terminates (LangTag_extensions s) /\ terminates (LangTag_private_use s) /\
  terminates (LangTag_private_use_subtags s).
Proof.
  assert (P : terminates (LangTag_private_use s)).
  { apply t_bind; [auto with term|]. intros [n|]; cbn [and_then]; auto with term. }
  repeat split; try exact P.
  - rewrite as_typed_eq. unfold typed_of. destruct (accepts Langtag s); auto with term.
    destruct (accepts Privateuse s); auto with term. destruct (gf_find GRANDFATHERED s); auto with term.
  - apply t_omap. rewrite as_typed_eq. unfold typed_of. destruct (accepts Langtag s); auto with term.
    destruct (accepts Privateuse s); auto with term. destruct (gf_find GRANDFATHERED s); auto with term.
  - apply t_bind; [auto with term|]. intros [n|n]; [auto with term|]. apply t_bind; auto with term.
  - apply t_bind; [auto with term|]. intros [n|]; cbn [and_then]; auto with term.
  - apply t_bind; [auto with term|]. intros [n|]; cbn [and_then]; auto with term.
  - apply t_bind; [auto with term|]. intros [n|]; auto with term.
  - apply t_bind; [auto with term|]. intros [n|]; auto with term.
  - apply t_bind; [exact P|auto with term].
Qed.

(** * 4. Iterators and lookup *)

Lemma t_segment_next it : terminates (segment_next it).
Proof.
  unfold segment_next. destruct (_ <? _); auto with term. apply t_bind; [auto with term|intros e].
  apply t_bind; auto with term.
Qed.
Lemma t_extensions_next it : terminates (ExtensionsIter_next it).
Proof.
  unfold ExtensionsIter_next. destruct (_ <? _); auto with term. apply t_bind; [auto with term|intros e].
  apply t_bind; auto with term.
Qed.
Lemma t_variants_next it : terminates (VariantsIter_next it).
Proof.
  unfold VariantsIter_next. destruct (_ <? _); auto with term. apply t_bind; [auto with term|intros e].
  apply t_bind; auto with term.
Qed.
Lemma t_variants_next_back it : terminates (VariantsIter_next_back it).
Proof.
  unfold VariantsIter_next_back. destruct (_ <? _); auto with term. apply t_bind; [auto with term|intros e].
  apply t_bind; auto with term.
Qed.

Lemma t_get s c : terminates (Extensions_get s c).
Proof.
  unfold Extensions_get.
  enough (forall fuel i b, length s - i <= fuel -> terminates (Extensions_get_loop fuel s c i b)) as H by (apply H; lia).
  induction fuel as [|fuel IH]; intros i b L; cbn [Extensions_get_loop];
    destruct (Nat.ltb_spec (i + 1) (length s)); auto with term; [lia|].
  apply t_bind; [auto with term|intros x]. destruct b; [|apply IH; lia].
  apply t_bind.
  - destruct (beq x c); auto with term. apply t_bind; auto with term.
  - intros [|]; [|apply IH; lia]. apply t_bind; auto with term.
Qed.

(** Items so far. *)
Definition items {A} (l : list (option A)) : nat := length (filter is_some l).

Section Finite.
  Variable I : Type.
  Variable next : I -> outcome (option bytes * I).
  Variable measure : I -> nat.
  Hypothesis next_some : forall it x it', next it = Ret (Some x, it') -> measure it' < measure it.
  Hypothesis next_none : forall it it', next it = Ret (None, it') -> it' = it.

  Lemma calls_none k : forall it rs, next it = Ret (None, it) -> calls next k it = Ret rs -> rs = repeat None k.
  Proof.
    induction k as [|k IH]; intros it rs N E; cbn [calls] in E; [injection E as <-; reflexivity|].
    rewrite N in E. cbn [bind snd fst] in E. destruct (calls next k it) as [rs'| |] eqn:C; try discriminate.
    cbn [bind] in E. injection E as <-. cbn [repeat]. f_equal. eapply IH; eauto.
  Qed.

  (** The results are some items, at most [measure it] of them, and then only [None]. *)
  Lemma calls_fused k : forall it rs, calls next k it = Ret rs ->
    exists l n, rs = map Some l ++ repeat None n /\ length l <= measure it.
  Proof.
    induction k as [|k IH]; intros it rs E; cbn [calls] in E.
    - injection E as <-. exists [], 0. split; [reflexivity|cbn; lia].
    - destruct (next it) as [[[x|] it']| |] eqn:N; try discriminate; cbn [bind snd fst] in E.
      + destruct (calls next k it') as [rs'| |] eqn:C; try discriminate. cbn [bind] in E. injection E as <-.
        destruct (IH _ _ C) as (l & n & -> & L). exists (x :: l), n. split; [reflexivity|].
        apply next_some in N. cbn [length]. lia.
      + pose proof (next_none _ _ N) as ->. destruct (calls next k it) as [rs'| |] eqn:C; try discriminate.
        cbn [bind] in E. injection E as <-. pose proof (calls_none k it rs' N C) as ->.
        exists [], (S k). split; [reflexivity|cbn; lia].
  Qed.
End Finite.

Lemma index_ret s i b : index s i = Ret b -> i < length s.
Proof.
  unfold index. destruct (nth_error s i) eqn:E; [|discriminate]. intros _.
  apply nth_error_Some. congruence.
Qed.

Lemma find_segment_end_ge s off e : find_segment_end s off = Ret e -> off <= e.
Proof.
  unfold find_segment_end. generalize (length s) at 1. intros fuel. revert off.
  induction fuel as [|fuel IH]; intros off; cbn [find_segment_end_loop];
    destruct (off <? length s); intros E; try discriminate; try (injection E as <-; lia).
  destruct (index s off) as [b| |]; try discriminate. cbn [bind] in E. destruct (beq b dash).
  - injection E as <-. lia.
  - apply IH in E. lia.
Qed.

Lemma segment_next_some it x it' : segment_next it = Ret (Some x, it') ->
  length (it_data it') - it_offset it' < length (it_data it) - it_offset it.
Proof.
  unfold segment_next. destruct (Nat.ltb_spec (it_offset it) (length (it_data it))); [|discriminate].
  destruct (find_segment_end (it_data it) (it_offset it)) as [e| |] eqn:F; try discriminate. cbn [bind].
  destruct (slice (it_data it) (it_offset it) e) as [y| |]; try discriminate. cbn [bind].
  intros E. injection E as _ <-. cbn [it_data it_offset]. apply find_segment_end_ge in F. lia.
Qed.
Lemma segment_next_none it it' : segment_next it = Ret (None, it') -> it' = it.
Proof.
  unfold segment_next. destruct (_ <? _); [|congruence].
  destruct (find_segment_end _ _) as [e| |]; try discriminate. cbn [bind]. destruct (slice _ _ _); discriminate.
Qed.

Lemma find_list_end_loop_ge s f : forall fuel i off e r, find_list_end_loop fuel s f i off e = Ret r ->
  e <= i -> off <= i -> e <= length s -> e <= r.
Proof.
  induction fuel as [|fuel IH]; intros i off e r E Le Lo Ls; cbn [find_list_end_loop] in E;
    destruct (Nat.ltb_spec i (length s)); try discriminate.
  - destruct (slice_from s off); try discriminate. cbn [bind] in E. destruct (f off a) as [[|]| |]; try discriminate;
      injection E as <-; lia.
  - destruct (index s i) as [b| |]; try discriminate. cbn [bind] in E. destruct (beq b dash).
    + destruct (slice s off i) as [x| |]; try discriminate. cbn [bind] in E. destruct (f off x) as [[|]| |]; try discriminate.
      * cbn [bind] in E. apply IH in E; lia.
      * injection E as <-. lia.
    + apply IH in E; lia.
  - destruct (slice_from s off); try discriminate. cbn [bind] in E. destruct (f off a) as [[|]| |]; try discriminate;
      injection E as <-; lia.
Qed.

Lemma find_list_end_ge s off f r : find_list_end s off f = Ret r -> off <= r.
Proof.
  intros E. destruct (le_lt_dec off (length s)) as [L|L].
  - eapply find_list_end_loop_ge; [exact E|lia|lia|lia].
  - rewrite find_list_end_panic in E by exact L. discriminate.
Qed.

Lemma extensions_next_some it x it' : ExtensionsIter_next it = Ret (Some x, it') ->
  length (it_data it') - it_offset it' < length (it_data it) - it_offset it.
Proof.
  unfold ExtensionsIter_next. destruct (Nat.ltb_spec (it_offset it) (length (it_data it))); [|discriminate].
  destruct (find_list_end _ _ _) as [e| |] eqn:F; try discriminate. cbn [bind].
  destruct (slice (it_data it) (it_offset it) e) as [y| |]; try discriminate. cbn [bind].
  intros E. injection E as _ <-. cbn [it_data it_offset]. apply find_list_end_ge in F. lia.
Qed.
Lemma extensions_next_none it it' : ExtensionsIter_next it = Ret (None, it') -> it' = it.
Proof.
  unfold ExtensionsIter_next. destruct (_ <? _); [|congruence].
  destruct (find_list_end _ _ _) as [e| |]; try discriminate. cbn [bind]. destruct (slice _ _ _); discriminate.
Qed.

Lemma find_segment_start_le s e r : find_segment_start s e = Ret r -> r <= e.
Proof.
  destruct e as [|i]; cbn [find_segment_start]; [intros E; injection E as <-; lia|].
  intros E. enough (r <= i + 1) by lia. revert E. induction i as [|i IH]; cbn [find_segment_start_loop];
    destruct (index s _) as [b| |]; try discriminate; cbn [bind]; destruct (beq b dash); intros E;
    try (injection E as <-; lia). apply IH in E. lia.
Qed.

Definition v_left (it : viter) : nat := v_end it - v_offset it.

Lemma variants_next_some it x it' : VariantsIter_next it = Ret (Some x, it') -> v_left it' < v_left it.
Proof.
  unfold VariantsIter_next, v_left. destruct (Nat.ltb_spec (v_offset it) (v_end it)); [|discriminate].
  destruct (find_segment_end (v_data it) (v_offset it)) as [e| |] eqn:F; try discriminate. cbn [bind].
  destruct (slice (v_data it) (v_offset it) e) as [y| |]; try discriminate. cbn [bind].
  intros E. injection E as _ <-. cbn [v_end v_offset]. apply find_segment_end_ge in F. lia.
Qed.
Lemma variants_next_back_some it x it' : VariantsIter_next_back it = Ret (Some x, it') -> v_left it' < v_left it.
Proof.
  unfold VariantsIter_next_back, v_left. destruct (Nat.ltb_spec (v_offset it) (v_end it)); [|discriminate].
  destruct (find_segment_start (v_data it) (v_end it)) as [e| |] eqn:F; try discriminate. cbn [bind].
  destruct (slice (v_data it) e (v_end it)) as [y| |]; try discriminate. cbn [bind].
  intros E. injection E as _ <-. cbn [v_end v_offset]. apply find_segment_start_le in F.
  destruct (Nat.ltb_spec 0 e); lia.
Qed.
Lemma variants_next_none it it' : VariantsIter_next it = Ret (None, it') -> it' = it /\ VariantsIter_next_back it = Ret (None, it).
Proof.
  unfold VariantsIter_next, VariantsIter_next_back. destruct (_ <? _).
  - destruct (find_segment_end _ _) as [e| |]; try discriminate. cbn [bind]. destruct (slice _ _ _); discriminate.
  - intros E. injection E as <-. split; reflexivity.
Qed.
Lemma variants_next_back_none it it' : VariantsIter_next_back it = Ret (None, it') -> it' = it /\ VariantsIter_next it = Ret (None, it).
Proof.
  unfold VariantsIter_next, VariantsIter_next_back. destruct (_ <? _).
  - destruct (find_segment_start _ _) as [e| |]; try discriminate. cbn [bind]. destruct (slice _ _ _); discriminate.
  - intros E. injection E as <-. split; reflexivity.
Qed.

Lemma variants_calls_none ops : forall it rs, VariantsIter_next it = Ret (None, it) ->
  calls_de VariantsIter_next VariantsIter_next_back ops it = Ret rs -> rs = repeat None (length ops).
Proof.
  induction ops as [|op ops IH]; intros it rs N E; cbn [calls_de] in E; [injection E as <-; reflexivity|].
  pose proof (variants_next_none _ _ N) as [_ N'].
  assert (E' : (let! rs0 := calls_de VariantsIter_next VariantsIter_next_back ops it in Ret (None :: rs0)) = Ret rs).
  { destruct op; [rewrite N in E|rewrite N' in E]; exact E. }
  destruct (calls_de _ _ ops it) as [rs'| |] eqn:C; try discriminate. cbn [bind] in E'. injection E' as <-.
  cbn [length repeat]. f_equal. eapply IH; eauto.
Qed.

Lemma variants_fused ops : forall it rs, calls_de VariantsIter_next VariantsIter_next_back ops it = Ret rs ->
  exists l n, rs = map Some l ++ repeat None n /\ length l <= v_left it.
Proof.
  induction ops as [|op ops IH]; intros it rs E; cbn [calls_de] in E.
  - injection E as <-. exists [], 0. split; [reflexivity|cbn; lia].
  - destruct (match op with Front => VariantsIter_next it | Back => VariantsIter_next_back it end)
      as [[[x|] it']| |] eqn:N; try discriminate; cbn [bind snd fst] in E.
    + destruct (calls_de _ _ ops it') as [rs'| |] eqn:C; try discriminate. cbn [bind] in E. injection E as <-.
      destruct (IH _ _ C) as (l & n & -> & L). exists (x :: l), n. split; [reflexivity|].
      assert (v_left it' < v_left it).
      { destruct op; [eapply variants_next_some|eapply variants_next_back_some]; exact N. }
      cbn [length]. lia.
    + assert (it' = it /\ VariantsIter_next it = Ret (None, it)) as [-> N'].
      { destruct op.
        - pose proof (variants_next_none _ _ N) as [-> _]. auto.
        - apply variants_next_back_none, N. }
      destruct (calls_de _ _ ops it) as [rs'| |] eqn:C; try discriminate. cbn [bind] in E. injection E as <-.
      rewrite (variants_calls_none ops it rs' N' C). exists [], (S (length ops)). split; [reflexivity|cbn; lia].
Qed.

Lemma segment_fused k it rs : calls segment_next k it = Ret rs ->
  exists l n, rs = map Some l ++ repeat None n /\ length l <= length (it_data it) - it_offset it.
Proof. exact (calls_fused _ _ _ segment_next_some segment_next_none k it rs). Qed.
Lemma extensions_fused k it rs : calls ExtensionsIter_next k it = Ret rs ->
  exists l n, rs = map Some l ++ repeat None n /\ length l <= length (it_data it) - it_offset it.
Proof. exact (calls_fused _ _ _ extensions_next_some extensions_next_none k it rs). Qed.

(** * 5. Iterators over subtags, from any position of any ASCII text *)

(** [s] is the pieces [l], each followed by '-' but for the last, unless that is empty. *)
Definition cut_at_dashes (s : bytes) (l : list bytes) : Prop :=
  forallb dash_free l = true /\
  (s = [] /\ l = [] \/ s = join l /\ last l [] <> [] \/ s = join l ++ [dash] /\ l <> []).

Lemma join_empty_last l : l <> [] -> join (l ++ [[]]) = join l ++ [dash].
Proof. intros H. now rewrite join_app. Qed.

Lemma cut_inv s l : cut_at_dashes s l -> forallb dash_free l = true /\
  (s = [] /\ l = [] \/ exists x r t, l = x :: r /\ s = x ++ dtail (r ++ t) /\
    (t = [] /\ last (x :: r) [] <> [] \/ t = [[]])).
Proof.
  intros [D [[-> ->]|[[-> L]|[-> L]]]]; (split; [exact D|]); [auto|right..].
  - destruct l as [|x r]; [now destruct L|]. exists x, r, []. rewrite app_nil_r, join_cons. auto.
  - destruct l as [|x r]; [now destruct L|]. exists x, r, [[]]. rewrite <- join_empty_last by exact L.
    cbn [app]. rewrite join_cons. auto.
Qed.

Lemma cut_next x r t : forallb dash_free (x :: r) = true -> (t = [] /\ last (x :: r) [] <> [] \/ t = [[]]) ->
  (dtail (r ++ t) = [] /\ r = [] \/ exists s, dtail (r ++ t) = dash :: s /\ cut_at_dashes s r) /\ x ++ dtail (r ++ t) <> [].
Proof.
  intros D T. cbn [forallb] in D. apply andb_prop in D as [D1 D2]. destruct r as [|y r].
  - destruct T as [[-> L]| ->]; cbn [app] in *.
    + split; [now left|]. cbn in *. now rewrite app_nil_r.
    + split; [|now destruct x]. right. exists []. split; [reflexivity|]. split; [reflexivity|now left].
  - split; [|destruct x; discriminate]. right. exists (join (y :: r ++ t)). cbn [app]. split.
    { now rewrite dtail_join by discriminate. }
    split; [exact D2|]. right. destruct T as [[-> L]| ->].
    + left. rewrite app_nil_r. split; [reflexivity|]. exact L.
    + right. split; [|discriminate]. now rewrite <- join_empty_last.
Qed.

Definition at_cut (it : iter) (l : list bytes) : Prop :=
  ascii (it_data it) = true /\ cut_at_dashes (skipn (it_offset it) (it_data it)) l.

Lemma skipn_nil_length {A} n (l : list A) : skipn n l = [] -> length l <= n.
Proof. intros H. apply (f_equal (@length A)) in H. rewrite skipn_length in H. cbn in H. lia. Qed.

Lemma at_cut_nil it : at_cut it [] -> exists it', segment_next it = Ret (None, it') /\ at_cut it' [].
Proof.
  intros H. exists it. split; [|exact H]. destruct H as [_ H]. apply cut_inv in H as [_ [[H _]|(? & ? & ? & [=] & _)]].
  apply skipn_nil_length in H. unfold segment_next. destruct (Nat.ltb_spec (it_offset it) (length (it_data it))); [lia|reflexivity].
Qed.
Lemma at_cut_cons it x l : at_cut it (x :: l) -> exists it', segment_next it = Ret (Some x, it') /\ at_cut it' l.
Proof.
  intros [Ha H]. apply cut_inv in H as [D [[_ [=]]|(y & r & t & [= <- <-] & S & T)]].
  destruct (cut_next _ _ _ D T) as [N E]. set (d := it_data it) in *. set (o := it_offset it) in *.
  assert (O : o < length d).
  { destruct (le_lt_dec (length d) o) as [G|G]; [|exact G]. rewrite skipn_all2 in S by exact G. now rewrite <- S in E. }
  assert (P : d = firstn o d ++ x ++ dtail (l ++ t)) by (rewrite <- S; symmetry; apply firstn_skipn).
  assert (LP : length (firstn o d) = o) by (rewrite firstn_length; lia).
  cbn [forallb] in D. apply andb_prop in D as [D1 D2].
  exists (Iter d (o + length x + 1)). split.
  - unfold segment_next. fold d o. destruct (Nat.ltb_spec o (length d)); [|lia].
    rewrite P in Ha |- *. revert LP Ha. generalize (firstn o d). intros p <- Ha.
    rewrite find_segment_end_spec by exact D1. cbn [bind]. rewrite slice_mid by auto. reflexivity.
  - split; [exact Ha|]. cbn [it_data it_offset].
    assert (K : skipn (o + length x + 1) d = skipn 1 (dtail (l ++ t))).
    { rewrite P at 1. rewrite <- LP at 1. replace (length (firstn o d) + length x + 1) with (length (firstn o d ++ x) + 1)
        by (rewrite app_length; lia).
      rewrite app_assoc, Nat.add_comm, skipn_app, skipn_all2 by lia. cbn [app]. f_equal. lia. }
    rewrite K. destruct N as [[-> ->]|(s & -> & N)]; [|exact N]. split; [reflexivity|now left].
Qed.

Theorem segment_cut_calls d o l k : ascii d = true -> cut_at_dashes (skipn o d) l ->
  calls segment_next k (Iter d o) = Ret (expected_next k l).
Proof.
  intros A C. apply (calls_expected segment_next at_cut at_cut_nil at_cut_cons). split; assumption.
Qed.

Lemma cut_exists s : exists l, cut_at_dashes s l.
Proof.
  assert (H : forall s, exists x, dash_free x = true /\ (s = x \/ exists r, s = x ++ dash :: r)).
  { clear. induction s as [|b s (x & D & H)]; [exists []; auto|]. destruct (beq b dash) eqn:B.
    - apply beq_true in B as ->. exists []. split; [reflexivity|]. right. now exists s.
    - exists (b :: x). split; [cbn; now rewrite B|]. destruct H as [-> |(r & ->)]; [now left|]. right. now exists r. }
  remember (length s) as n eqn:E. revert s E. induction n as [n IH] using lt_wf_ind. intros s ->.
  destruct (H s) as (x & D & [-> |(r & ->)]).
  - destruct x as [|b x]; [exists []; split; [reflexivity|now left]|]. exists [b :: x]. split; [cbn; now rewrite andb_true_r|].
    right. left. split; [reflexivity|discriminate].
  - destruct (IH (length r) ltac:(rewrite app_length; cbn; lia) r eq_refl) as (l & DL & C).
    exists (x :: l). split; [cbn; now rewrite D|]. right. destruct l as [|y l].
    + right. split; [|discriminate]. destruct C as [[-> _]|[[_ C]|[_ C]]]; [reflexivity|now destruct C..].
    + destruct C as [[_ C]|[[-> C]|[-> C]]]; [discriminate|left|right].
      * split; [|exact C]. now rewrite (join_cons x), dtail_join by discriminate.
      * split; [|discriminate]. rewrite (join_cons x), dtail_join by discriminate. now rewrite <- app_assoc.
Qed.
