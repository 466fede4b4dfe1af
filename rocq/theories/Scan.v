(** Proofs about the scanning functions of normal/mod.rs and about slicing. *)
From Verif Require Import Base GrammarRs Validate Utils Grandfathered Normal LangTag Newtypes Derived Spec
  Observe RegexEquiv Accept Case Direct Parse.

(** * 1. Slices of ASCII strings *)

Definition ascii (s : bytes) : bool := forallb (fun b => (code b <? 128)%N) s.

Lemma ascii_app a b : ascii (a ++ b) = ascii a && ascii b.
Proof. apply forallb_app. Qed.

Lemma seg_ascii x : seg_ok x = true -> ascii x = true.
Proof.
  unfold seg_ok, ascii. rewrite sized_spec. intros [_ H]. rewrite forallb_forall in *.
  intros b Hb. apply N.ltb_lt, alnum_ascii; auto.
Qed.

Lemma dtail_ascii l : forallb seg_ok l = true -> ascii (dtail l) = true.
Proof.
  induction l as [|x l IH]; [auto|]. cbn [forallb]. rewrite andb_true_iff. intros [Hx Hl].
  change (dtail (x :: l)) with (dash :: (x ++ dtail l)).
  change (ascii (dash :: (x ++ dtail l))) with (ascii (x ++ dtail l)).
  rewrite ascii_app, seg_ascii, IH; auto.
Qed.

Lemma join_ascii l : forallb seg_ok l = true -> ascii (join l) = true.
Proof.
  destruct l as [|x l]; [auto|]. cbn [forallb]. rewrite andb_true_iff. intros [Hx Hl].
  rewrite join_cons, ascii_app, seg_ascii, dtail_ascii; auto.
Qed.

Lemma ascii_boundary s i : ascii s = true -> i <= length s -> is_char_boundary s i = true.
Proof.
  intros H Hi. unfold is_char_boundary. destruct (Nat.eqb_spec i (length s)); [apply orb_true_iff; left; apply orb_true_r|].
  destruct (nth_error s i) as [b|] eqn:E.
  - apply nth_error_In in E. unfold ascii in H. rewrite forallb_forall in H. specialize (H _ E).
    unfold boundary_byte. rewrite H. rewrite !orb_true_r. reflexivity.
  - apply nth_error_None in E. lia.
Qed.

Lemma slice_ascii s a b : ascii s = true -> a <= b -> b <= length s ->
  slice s a b = Ret (firstn (b - a) (skipn a s)).
Proof.
  intros H H1 H2. unfold slice. rewrite !ascii_boundary by (auto; lia).
  apply Nat.leb_le in H1, H2. rewrite H1, H2. reflexivity.
Qed.

Lemma slice_mid p m q : ascii (p ++ m ++ q) = true ->
  slice (p ++ m ++ q) (length p) (length p + length m) = Ret m.
Proof.
  intros H. rewrite slice_ascii; [|auto|lia|rewrite !app_length; lia].
  rewrite skipn_app, skipn_all, Nat.sub_diag. cbn [app skipn].
  replace (length p + length m - length p) with (length m + 0) by lia.
  rewrite firstn_app_2. cbn. rewrite app_nil_r. reflexivity.
Qed.

Lemma slice_from_app p q : ascii (p ++ q) = true -> slice_from (p ++ q) (length p) = Ret q.
Proof.
  intros H. unfold slice_from. rewrite ascii_boundary by (auto; rewrite app_length; lia).
  rewrite app_length. destruct (Nat.leb_spec (length p) (length p + length q)); [|lia].
  cbn [andb]. rewrite skipn_app, skipn_all, Nat.sub_diag. reflexivity.
Qed.

Lemma slice_to_app p q : ascii (p ++ q) = true -> slice_to (p ++ q) (length p) = Ret p.
Proof.
  intros H. unfold slice_to. rewrite ascii_boundary by (auto; rewrite app_length; lia).
  rewrite app_length. destruct (Nat.leb_spec (length p) (length p + length q)); [|lia].
  cbn [andb]. rewrite firstn_app, firstn_all, Nat.sub_diag. cbn. rewrite app_nil_r. reflexivity.
Qed.

Lemma slice_panic s a b : length s < b -> slice s a b = Panic.
Proof.
  intros H. unfold slice. destruct (Nat.leb_spec b (length s)); [lia|]. rewrite andb_false_r. reflexivity.
Qed.
Lemma slice_from_panic s a : length s < a -> slice_from s a = Panic.
Proof. intros H. unfold slice_from. destruct (Nat.leb_spec a (length s)); [lia|]. reflexivity. Qed.

(** * 2. [find_list_end] on joined subtags *)

(** The end of the list of subtags accepted by [g], from offset [off], when the previous end is [e]. *)
Fixpoint fle (g : nat -> bytes -> bool) (off e : nat) (l : list bytes) : nat :=
  match l with
  | [] => e
  | x :: l' => if g off x then fle g (off + length x + 1) (off + length x) l' else e
  end.

Lemma find_list_end_loop_spec s f g : ascii s = true ->
  forall l y z p fuel e,
    s = p ++ (y ++ z) ++ dtail l ->
    forallb dash_free (z :: l) = true ->
    (forall off x, In x ((y ++ z) :: l) -> f off x = Ret (g off x)) ->
    length s - (length p + length y) <= fuel ->
    find_list_end_loop fuel s f (length p + length y) (length p) e = Ret (fle g (length p) e ((y ++ z) :: l)).
Proof.
  intros Hs. induction l as [|x l IHl]; intros y z; revert y; induction z as [|b z IHz];
    intros y p fuel e E Hd Hf Hfuel.
  - (* end of the string *)
    cbn [dtail flat_map] in E. rewrite !app_nil_r in E.
    assert (HL : length s = length p + length y) by (rewrite E, app_length; lia).
    destruct fuel; cbn [find_list_end_loop]; (destruct (Nat.ltb_spec (length p + length y) (length s)); [lia|]);
      rewrite E, slice_from_app by congruence; cbn [bind]; rewrite app_nil_r in *;
      rewrite Hf by (left; reflexivity); cbn [bind fle]; rewrite <- E, HL;
      destruct (g (length p) y); reflexivity.
  - assert (HL : length p + length y < length s) by (rewrite E, !app_length; cbn; lia).
    destruct fuel as [|fuel]; [lia|]. cbn [find_list_end_loop].
    destruct (Nat.ltb_spec (length p + length y) (length s)); [|lia].
    replace (index s (length p + length y)) with (Ret b).
    2:{ rewrite E. rewrite <- app_length. replace (p ++ (y ++ b :: z) ++ dtail []) with ((p ++ y) ++ b :: z ++ dtail []).
        - rewrite index_app. reflexivity.
        - rewrite <- !app_assoc. reflexivity. }
    cbn [bind]. cbn [forallb dash_free] in Hd. rewrite !andb_true_iff, negb_true_iff in Hd.
    destruct Hd as [[Hb Hz] Hd]. rewrite Hb.
    replace (length p + length y + 1) with (length p + length (y ++ [b])) by (rewrite app_length; cbn; lia).
    replace (y ++ b :: z) with ((y ++ [b]) ++ z) in * by (rewrite <- app_assoc; reflexivity).
    apply IHz; auto.
    + cbn [forallb]. rewrite andb_true_iff. auto.
    + rewrite app_length. cbn. lia.
  - assert (HL : length p + length y < length s) by (rewrite E, !app_length; cbn; lia).
    rewrite app_nil_r in *.
    destruct fuel as [|fuel]; [lia|]. cbn [find_list_end_loop].
    destruct (Nat.ltb_spec (length p + length y) (length s)); [|lia].
    change (dtail (x :: l)) with (dash :: (x ++ dtail l)) in E.
    replace (index s (length p + length y)) with (Ret dash).
    2:{ rewrite E. rewrite <- app_length, app_assoc, index_app. reflexivity. }
    cbn [bind]. rewrite beq_refl.
    replace (slice s (length p) (length p + length y)) with (Ret y).
    2:{ rewrite E, slice_mid by congruence. reflexivity. }
    cbn [bind]. rewrite Hf by (left; reflexivity). cbn [bind]. cbn [fle].
    destruct (g (length p) y); [|reflexivity].
    replace (length p + length y + 1) with (length (p ++ y ++ [dash])) by (rewrite !app_length; cbn; lia).
    replace (find_list_end_loop fuel s f (length (p ++ y ++ [dash])))
      with (find_list_end_loop fuel s f (length (p ++ y ++ [dash]) + length (@nil byte)))
      by (f_equal; cbn; lia).
    rewrite (IHl [] x).
    + cbn [app fle]. reflexivity.
    + rewrite E. cbn [app]. rewrite <- !app_assoc. reflexivity.
    + cbn [forallb] in Hd. apply andb_true_iff in Hd as [_ Hd]. exact Hd.
    + intros off x' Hx. apply Hf. right. exact Hx.
    + rewrite !app_length. cbn. lia.
  - assert (HL : length p + length y < length s) by (rewrite E, !app_length; cbn; lia).
    destruct fuel as [|fuel]; [lia|]. cbn [find_list_end_loop].
    destruct (Nat.ltb_spec (length p + length y) (length s)); [|lia].
    replace (index s (length p + length y)) with (Ret b).
    2:{ rewrite E. rewrite <- app_length.
        replace (p ++ (y ++ b :: z) ++ dtail (x :: l)) with ((p ++ y) ++ b :: z ++ dtail (x :: l)).
        - rewrite index_app. reflexivity.
        - rewrite <- !app_assoc. reflexivity. }
    cbn [bind]. cbn [forallb dash_free] in Hd. rewrite !andb_true_iff, negb_true_iff in Hd.
    destruct Hd as [[Hb Hz] Hd]. rewrite Hb.
    replace (length p + length y + 1) with (length p + length (y ++ [b])) by (rewrite app_length; cbn; lia).
    replace (y ++ b :: z) with ((y ++ [b]) ++ z) in * by (rewrite <- app_assoc; reflexivity).
    apply IHz; auto.
    + cbn [forallb]. rewrite !andb_true_iff. auto.
    + rewrite app_length. cbn. lia.
Qed.

Theorem find_list_end_spec p l f g :
  ascii (p ++ join l) = true -> l <> [] -> forallb dash_free l = true ->
  (forall off x, In x l -> f off x = Ret (g off x)) ->
  find_list_end (p ++ join l) (length p) f = Ret (fle g (length p) (length p) l).
Proof.
  intros Hs Hl Hd Hf. destruct l as [|x l]; [congruence|]. unfold find_list_end.
  rewrite join_cons in *.
  pose proof (find_list_end_loop_spec (p ++ x ++ dtail l) f g Hs l [] x p
                (length (p ++ x ++ dtail l)) (length p)) as H.
  cbn [app length] in H. rewrite Nat.add_0_r in H. apply H; auto. lia.
Qed.

Theorem find_list_end_panic s off f : length s < off -> find_list_end s off f = Panic.
Proof.
  intros H. unfold find_list_end. destruct (length s) eqn:E; cbn [find_list_end_loop];
    rewrite E; (destruct (Nat.ltb_spec off (length s)); [lia|]); rewrite ?E;
    destruct (Nat.ltb_spec off 0); try lia; try (destruct (Nat.ltb_spec off (S n)); [lia|]);
    rewrite slice_from_panic by lia; reflexivity.
Qed.

(** [g] accepts every subtag of [a] at its offset and rejects the first of [b]. *)
Fixpoint all_at (g : nat -> bytes -> bool) (off : nat) (a : list bytes) : Prop :=
  match a with
  | [] => True
  | x :: a' => g off x = true /\ all_at g (off + length x + 1) a'
  end.

Fixpoint end_at (off : nat) (a : list bytes) : nat :=
  match a with [] => off | x :: a' => end_at (off + length x + 1) a' end.

Lemma end_at_dtail a : forall off, end_at off a = off + length (dtail a).
Proof.
  induction a as [|x a IH]; intros off; cbn [end_at].
  - cbn. lia.
  - rewrite IH. change (dtail (x :: a)) with (dash :: (x ++ dtail a)). cbn [length]. rewrite app_length. lia.
Qed.

Definition stops_at (g : nat -> bytes -> bool) (off : nat) (b : list bytes) : Prop :=
  match b with [] => True | x :: _ => g off x = false end.

Lemma fle_app g a : forall b off e, all_at g off a -> stops_at g (end_at off a) b ->
  fle g off e (a ++ b) = match a with [] => e | _ => off + length (join a) end.
Proof.
  induction a as [|x a IH]; intros b off e Ha Hb.
  - destruct b as [|y b]; cbn in *; [auto|]. rewrite Hb. reflexivity.
  - cbn [app fle]. destruct Ha as [Hx Ha]. rewrite Hx. cbn [end_at] in Hb. rewrite (IH b _ _ Ha Hb).
    rewrite join_cons, app_length. destruct a as [|y a]; cbn [dtail flat_map length]; [lia|].
    rewrite join_cons. change (flat_map (fun x0 : list byte => dash :: x0) a) with (dtail a).
    cbn [app length]. rewrite !app_length. lia.
Qed.

(** The scan of one component: text [p] before it, component subtags [a], the rest [b]. *)
Theorem stage p a b f g :
  ascii (p ++ dtail (a ++ b)) = true -> forallb dash_free (a ++ b) = true ->
  (forall off x, In x (a ++ b) -> f off x = Ret (g off x)) ->
  all_at g (length p + 1) a -> stops_at g (length (p ++ dtail a) + 1) b ->
  find_list_end (p ++ dtail (a ++ b)) (length p + 1) f =
  match a ++ b with
  | [] => Panic
  | _ => Ret (match a with [] => length p + 1 | _ => length (p ++ dtail a) end)
  end.
Proof.
  intros Hs Hd Hf Ha Hb. destruct (a ++ b) as [|x l] eqn:E.
  - cbn. apply find_list_end_panic. rewrite app_nil_r. lia.
  - rewrite <- E in *.
    rewrite (dtail_join (a ++ b)) in * by (rewrite E; discriminate).
    replace (p ++ dash :: join (a ++ b)) with ((p ++ [dash]) ++ join (a ++ b)) in *
      by (rewrite <- app_assoc; reflexivity).
    replace (length p + 1) with (length (p ++ [dash])) in * by (rewrite app_length; reflexivity).
    rewrite (find_list_end_spec _ _ f g); auto; [|rewrite E; discriminate].
    rewrite fle_app; auto.
    + f_equal. destruct a as [|y a]; [reflexivity|]. rewrite (dtail_join (y :: a)) by discriminate.
      rewrite !app_length. cbn [length]. lia.
    + rewrite end_at_dtail. replace (length (p ++ [dash]) + length (dtail a)) with (length (p ++ dtail a) + 1); auto.
      rewrite !app_length. cbn. lia.
Qed.

Lemma all_at_forallb ok off a : forallb ok a = true -> all_at (fun _ x => ok x) off a.
Proof.
  revert off. induction a as [|x a IH]; intros off; cbn; auto.
  rewrite andb_true_iff. intros [H1 H2]. auto.
Qed.

Lemma stops_at_stops ok off b : stops ok b -> stops_at (fun _ x => ok x) off b.
Proof. destruct b; auto. Qed.

(** * 3. [new(..).is_ok()] on subtags *)

Lemma new_is_ok_spec A r ok (HA : high_rejects A) (Hr : forall s, accepts A s = true <-> matches r s)
  (Hd : forall s, matches r s <-> ok s = true) s : new_is_ok A s = Ret (ok s).
Proof.
  rewrite new_is_ok_run by auto. f_equal. apply eq_true_iff_eq. rewrite Hr, Hd. tauto.
Qed.

Lemma is_ok_extlang_tag s : new_is_ok ExtlangTag s = Ret (extlang_tag_ok s).
Proof. exact (new_is_ok_spec _ _ _ high_ExtlangTag accepts_extlang_tag matches_extlang_tag s). Qed.
Lemma is_ok_script s : new_is_ok Script s = Ret (script_ok s).
Proof. exact (new_is_ok_spec _ _ _ high_Script accepts_script matches_script s). Qed.
Lemma is_ok_region s : new_is_ok Region s = Ret (region_ok s).
Proof. exact (new_is_ok_spec _ _ _ high_Region accepts_region matches_region s). Qed.
Lemma is_ok_variant s : new_is_ok Variant s = Ret (variant_ok s).
Proof. exact (new_is_ok_spec _ _ _ high_Variant accepts_variant matches_variant s). Qed.
Lemma is_ok_extension_subtag s : new_is_ok ExtensionSubtag s = Ret (ext_subtag_ok s).
Proof. exact (new_is_ok_spec _ _ _ high_ExtensionSubtag accepts_extension_subtag matches_extension_subtag s). Qed.
Lemma is_ok_primary s : new_is_ok Primary s = Ret (primary_ok s).
Proof. exact (new_is_ok_spec _ _ _ high_Primary accepts_primary matches_primary s). Qed.
Lemma is_ok_privateuse_subtag s : new_is_ok PrivateuseSubtag s = Ret (pu_subtag_ok s).
Proof. exact (new_is_ok_spec _ _ _ high_PrivateuseSubtag accepts_privateuse_subtag matches_privateuse_subtag s). Qed.

(** * 4. Singletons *)

Lemma as_u8_code b : as_u8 (code b) = b.
Proof.
  unfold as_u8. rewrite N.mod_small by apply code_lt. unfold code. rewrite Strings.Byte.of_to_N. reflexivity.
Qed.

Lemma Singleton_new_spec b : Singleton_new b = if singleton_ok b then Ok b else Err b.
Proof. destruct b; reflexivity. Qed.

Lemma singleton_ok_ascii b : singleton_ok b = true -> (code b < 128)%N.
Proof. unfold singleton_ok. rewrite !andb_true_iff. intros [[H _] _]. apply alnum_ascii; auto. Qed.

Lemma Singleton_try_from_char_spec c : Singleton_try_from_char c =
  match Strings.Byte.of_N c with
  | Some b => if singleton_ok b then Ok b else Err c
  | None => Err c
  end.
Proof.
  unfold Singleton_try_from_char. destruct (N.ltb_spec c 255) as [H|H].
  - destruct (Strings.Byte.of_N c) as [b|] eqn:E.
    + apply Strings.Byte.to_of_N_iff in E. subst c. fold (code b). rewrite as_u8_code, Singleton_new_spec.
      destruct (singleton_ok b); reflexivity.
    + apply Strings.Byte.of_N_None_iff in E. lia.
  - destruct (Strings.Byte.of_N c) as [b|] eqn:E; [|reflexivity].
    apply Strings.Byte.to_of_N_iff in E. subst c. destruct (singleton_ok b) eqn:Eb; [|reflexivity].
    apply singleton_ok_ascii in Eb. fold (code b) in H. lia.
Qed.

Lemma decode_ascii s i b : nth_error s i = Some b -> (code b < 128)%N -> decode_utf8_char s i = Some (code b, 1).
Proof. intros H1 H2. destruct (decode_utf8_char_ok s i b H1) as [H _]. auto. Qed.

Lemma Singleton_from_string_ascii s : ascii s = true ->
  Singleton_from_string s =
  Ret match s with [b] => if singleton_ok b then Ok b else Err s | _ => Err s end.
Proof.
  intros H. unfold Singleton_from_string.
  destruct s as [|b [|b' s]]; [reflexivity| |reflexivity].
  cbn [length Nat.eqb]. unfold ascii in H. cbn in H. rewrite andb_true_r in H. apply N.ltb_lt in H.
  rewrite (decode_ascii _ _ b) by auto. rewrite Singleton_try_from_char_spec.
  unfold code. rewrite Strings.Byte.of_to_N. destruct (singleton_ok b); reflexivity.
Qed.

Definition is_singleton (x : bytes) : bool := match x with [b] => singleton_ok b | _ => false end.

Lemma Singleton_from_string_is_ok s : ascii s = true ->
  omap is_ok (Singleton_from_string s) = Ret (is_singleton s).
Proof.
  intros H. rewrite Singleton_from_string_ascii by auto. cbn. destruct s as [|b [|b' s]]; cbn; auto.
  destruct (singleton_ok b); reflexivity.
Qed.

(** * 5. [find_segment_end] and [find_segment_start] *)

Lemma find_segment_end_loop_spec s l : forall z p fuel, s = p ++ z ++ dtail l -> dash_free z = true ->
  length s - length p <= fuel -> find_segment_end_loop fuel s (length p) = Ret (length p + length z).
Proof.
  induction z as [|b z IH]; intros p fuel E Hd Hf.
  - destruct l as [|x l].
    + cbn [dtail flat_map app] in E. rewrite app_nil_r in E. subst s.
      destruct fuel; cbn [find_segment_end_loop]; rewrite Nat.ltb_irrefl; f_equal; cbn; lia.
    + change (dtail (x :: l)) with (dash :: (x ++ dtail l)) in E. cbn [app] in E.
      assert (length p < length s) by (rewrite E, app_length; cbn; lia).
      destruct fuel as [|fuel]; [lia|]. cbn [find_segment_end_loop].
      destruct (Nat.ltb_spec (length p) (length s)); [|lia].
      rewrite E, index_app. cbn [bind]. rewrite beq_refl. f_equal. cbn. lia.
  - assert (length p < length s) by (rewrite E, app_length; cbn; lia).
    destruct fuel as [|fuel]; [lia|]. cbn [find_segment_end_loop].
    destruct (Nat.ltb_spec (length p) (length s)); [|lia].
    replace (index s (length p)) with (Ret b) by (rewrite E; cbn [app]; rewrite index_app; reflexivity).
    cbn [bind]. cbn [dash_free forallb] in Hd. rewrite andb_true_iff, negb_true_iff in Hd.
    destruct Hd as [Hb Hz]. rewrite Hb.
    replace (length p + 1) with (length (p ++ [b])) by (rewrite app_length; reflexivity).
    rewrite (IH (p ++ [b])); auto.
    + f_equal. rewrite app_length. cbn. lia.
    + rewrite E, <- app_assoc. reflexivity.
    + rewrite app_length. cbn. lia.
Qed.

Theorem find_segment_end_spec p z l : dash_free z = true ->
  find_segment_end (p ++ z ++ dtail l) (length p) = Ret (length p + length z).
Proof. intros H. apply (find_segment_end_loop_spec _ l); auto. lia. Qed.

Lemma find_segment_start_loop_spec z : forall p q i, dash_free z = true -> z <> [] ->
  S i = length p + length z ->
  (p = [] \/ exists p', p = p' ++ [dash]) ->
  find_segment_start_loop (p ++ z ++ q) i = Ret (length p).
Proof.
  induction z as [|b z IH] using rev_ind; intros p q i Hd Hz Hi Hp; [congruence|].
  unfold dash_free in Hd. rewrite forallb_app in Hd. cbn in Hd. rewrite andb_true_r, andb_true_iff, negb_true_iff in Hd.
  destruct Hd as [Hz' Hb]. rewrite app_length in Hi. cbn in Hi.
  assert (Ei : i = length (p ++ z)) by (rewrite app_length; lia).
  assert (E : p ++ (z ++ [b]) ++ q = (p ++ z) ++ b :: q) by (rewrite <- !app_assoc; reflexivity).
  rewrite E.
  assert (HI : index ((p ++ z) ++ b :: q) i = Ret b) by (rewrite Ei; apply index_app).
  destruct z as [|c z].
  - rewrite app_nil_r in *. destruct i as [|i]; cbn [find_segment_start_loop]; rewrite HI; cbn [bind]; rewrite Hb.
    + destruct p; [reflexivity|discriminate].
    + destruct Hp as [->|[p' ->]]; [discriminate|]. rewrite app_length in Ei. cbn in Ei.
      assert (HI2 : index ((p' ++ [dash]) ++ b :: q) i = Ret dash).
      { replace i with (length p') by lia. rewrite <- app_assoc. apply index_app. }
      replace (length (p' ++ [dash])) with (i + 1) by (rewrite app_length; cbn; lia).
      destruct i as [|i]; cbn [find_segment_start_loop]; rewrite HI2; cbn [bind]; rewrite beq_refl; reflexivity.
  - destruct i as [|i]; [rewrite app_length in Ei; cbn in Ei; lia|].
    cbn [find_segment_start_loop]. rewrite HI. cbn [bind]. rewrite Hb.
    rewrite <- E, <- !app_assoc. rewrite (IH p ([b] ++ q) i); auto; [discriminate|].
    rewrite app_length in Ei. lia.
Qed.

Theorem find_segment_start_spec p z q : dash_free z = true -> z <> [] ->
  (p = [] \/ exists p', p = p' ++ [dash]) ->
  find_segment_start (p ++ z ++ q) (length p + length z) = Ret (length p).
Proof.
  intros H1 H2 H3. unfold find_segment_start. destruct (length p + length z) as [|i] eqn:E.
  - destruct z; [congruence|]. cbn in E. lia.
  - apply find_segment_start_loop_spec; auto.
Qed.
