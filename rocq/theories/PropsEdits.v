(** C79: which edits of the source a client can see. *)
From Verif Require Import Base GrammarRs Validate Utils Grandfathered Normal LangTag Newtypes Derived Spec Observe Iter.
From Verif Require Import RustText RustSyntax RustEval RustProgram RustRefine RustGrammar RustValidate RustNormal RustAccess
  RustTags RustLib RustSays RustOracle RustGenerated RustClient RustClientSound RustFuel PropsClient RustBranches
  RustTests RustUnused PropsBranches RustEdits RustSame RustSilent RustSwap RustWide.
Import Base.
Open Scope string_scope.
Open Scope nat_scope.
Open Scope list_scope.

(** * The edits that a call shows *)

Lemma noticed_all c : forall w, all_noticed c w = true -> forall e i l, In (e, i, l) c ->
  same_edit e i = true \/
  exists x, In ((e, i, l), Some x) (combine c w) /\ client_call x <> None /\ (silent_edit e i = false -> noticed l x = true).
Proof.
  induction c as [|[[e0 i0] l0] c IH]; intros w H e i l I; [destruct I|]. cbn [all_noticed] in H.
  destruct w as [|[x|] w]; [discriminate H|..]; cbn [combine].
  - apply andb_prop in H as [H H2]. apply andb_prop in H as [_ H1]. destruct I as [E|I].
    + injection E as -> -> ->. right. exists x. split; [now left|]. destruct (silent_edit e i).
      * split; [|discriminate]. clear IH H2. destruct (client_call x); [intros D; discriminate D|discriminate H1].
      * split; [|intros _; exact H1]. unfold noticed in H1. clear IH H2. destruct (client_call x) as [[args r]|]; [intros D; discriminate D|discriminate H1].
    + destruct (IH w H2 e i l I) as [S|(y & A & B)]; [now left|]. right. exists y. split; [now right|exact B].
  - apply andb_prop in H as [H1 H2]. destruct I as [E|I].
    + injection E as -> -> ->. now left.
    + destruct (IH w H2 e i l I) as [S|(y & A & B)]; [now left|]. right. exists y. split; [now right|exact B].
Qed.
Lemma client_call_made f is args r : client_call (f, is) = Some (args, r) ->
  exists tys v, r = Ret v /\ offered crate f tys /\ Forall2 (has_type crate) tys args /\ (forall a, In a args -> reached crate runs a) /\
    runs f args (Ret v) /\ rooms args <= 1000.
Proof.
  unfold client_call. cbn [fst snd]. destruct (sig f) as [tys|] eqn:S; [|discriminate].
  destruct (picked edit_pool is) as [a|] eqn:Q; [|discriminate]. destruct (typesb tys a && (rooms a <=? 1000)) eqn:W; [|discriminate].
  apply andb_prop in W as [T B]. apply sig_offered in S. apply typesb_have_types in T. apply Nat.leb_le in B.
  destruct (call 1000 crate 300 (VPath f) a) as [v| |] eqn:E; try discriminate. intros X.
  assert (A : a = args) by congruence. assert (A' : r = Ret v) by congruence. clear X. subst a r.
  assert (R : forall a, In a args -> reached crate runs a).
  { intros a A. apply (proj1 (Forall_forall _ _) edit_pool_reached). exact (picked_In edit_pool is args Q a A). }
  exists tys, v. repeat split; try assumption. exact (run_runs f tys args v S T R B E).
Qed.

(** Every edit of the source outside grammar.rs, but 17: a function that is offered, called with arguments that a client can
    have, returns; and with the edit it returns something else, or panics. *)
Theorem C79_noticed : forall P e i l, load files (Program [] [] [] [] []) = Some P ->
  In (e, i, l) (entry_edits in_grammar (fns P)) -> same_edit e i = false -> silent_edit e i = false ->
  exists f tys args v r, offered P f tys /\ Forall2 (has_type P) tys args /\ (forall a, In a args -> reached P runs a) /\
    runs f args (Ret v) /\ r <> OutOfFuel /\ r <> Ret v /\
    exists N, forall M n, 1000 <= M -> N <= n ->
      call M (Program l (consts P) (structs P) (enums P) (aliases P)) n (VPath f) args = r.
Proof.
  intros P e i l L I S1 S2. rewrite crate_is_the_source in L. injection L as <-.
  destruct (noticed_all _ _ edits_noticed e i l I) as [X|([f is] & _ & _ & W)]; [congruence|]. specialize (W S2).
  unfold noticed in W. cbn [fst] in W. destruct (client_call (f, is)) as [[args r]|] eqn:C; [|discriminate W].
  destruct (client_call_made f is args r C) as (tys & v & -> & O & T & R & X & _).
  exists f, tys, args, v, (call 1000 (with_fns l) 300 (VPath f) args).
  split; [exact O|]. split; [exact T|]. split; [exact R|]. split; [exact X|].
  assert (D : call 1000 (with_fns l) 300 (VPath f) args <> OutOfFuel).
  { intros D. rewrite D in W. discriminate W. }
  split; [exact D|]. split; [intros D'; exact (other_result_ne _ _ W (eq_sym D'))|].
  exists 300. intros M n LM LN. fold (with_fns l).
  destruct (upto_call (with_fns l) 1000 M 300 n (VPath f) args LM LN) as [Y|Y]; [exact (False_ind _ (D Y))|exact (eq_sym Y)].
Qed.

(** * The edits that a call shows by giving nothing *)

(** Eight of the 17: the call returns, but has no result with the edit, however long it runs.  It subtracts below zero, which
    panics or goes on with another number as the crate is built, or it runs for ever. *)
Theorem C79_silent : forall P e i l, load files (Program [] [] [] [] []) = Some P ->
  In (e, i, l) (entry_edits in_grammar (fns P)) -> silent_edit e i = true ->
  exists f tys args v, offered P f tys /\ Forall2 (has_type P) tys args /\ (forall a, In a args -> reached P runs a) /\
    runs f args (Ret v) /\ rooms args <= 1000 /\
    forall n, call 1000 (Program l (consts P) (structs P) (enums P) (aliases P)) n (VPath f) args = OutOfFuel.
Proof.
  intros P e i l L I S. rewrite crate_is_the_source in L. injection L as <-.
  destruct (noticed_all _ _ edits_noticed e i l I) as [X|([f is] & J & W & _)].
  { exfalso. clear I. revert S X. unfold silent_edit, same_edit, local_edit, wide_edit, edit_of. cbn [existsb fst snd]. generalize (en_type e) (fn_name (en_fn e)).
    intros t m. intros S X.
    repeat match type of S with
    | (_ || _) = true => apply orb_prop in S as [S|S]
    end; try discriminate S; apply andb_prop in S as [S N]; apply andb_prop in S as [A B]; apply String.eqb_eq in A, B; apply Nat.eqb_eq in N; subst;
    discriminate X. }
  destruct (client_call (f, is)) as [[args r]|] eqn:C; [|exact (False_ind _ (W eq_refl))].
  destruct (client_call_made f is args r C) as (tys & v & -> & O & T & R & X & B).
  exists f, tys, args, v. repeat (split; [assumption|]). fold (with_fns l).
  assert (K : In ((e, i, l), Some (f, is)) silent_edits).
  { unfold silent_edits. apply filter_In. split; [exact J|exact S]. }
  apply all_silent in K. unfold silent_call in K. cbn [fst snd] in K. rewrite C in K. exact K.
Qed.

(** * The edits that no call shows *)

Lemma backs_keep Q f tys args r : agrees free Q -> backs Q -> lasts Q -> offered crate f tys -> Forall sound0 args ->
  says f args r -> runs_in Q f args r.
Proof.
  intros G BK LS O S H. apply offered_not_hidden in O.
  assert (K : free_call f args = true -> runs_in Q f args r).
  { intros A M L R. apply says_runs in H. destruct (runs_inv _ _ _ H M L R) as (N & X). exists N. intros n B.
    rewrite G by exact A. now apply X. }
  destruct H;
    try discriminate O;
    try (apply K; clear;
         repeat match goal with
         | ty : newtype |- _ => destruct ty
         | t : typed |- _ => destruct t
         | k : kind |- _ => destruct k
         | g : grandfathered |- _ => destruct g
         end; reflexivity);
    try (apply K; match goal with W : _ \/ _ |- _ => destruct W as [-> | ->]; reflexivity end); clear K.
  - (* VariantsIter::next_back *) intros M L R. exists (2000 + v_end it). intros n B.
    inversion S as [|? ? V _]; subst. apply viter_sound in V as (l & V & W). apply BK; [lia|destruct it; cbn in *; lia|].
    exact (at_variants_clean it l V W).
  - (* Variants::last *) intros M L R. exists (2000 + length s). intros n B.
    inversion S as [|? ? V _]; subst. apply tag_sound in V. apply LS; [lia|cbn in R; lia|].
    apply variants_clean. exact V.
Qed.
Lemma gets_keep Q f tys args r : agrees get_free Q -> gets Q -> gets_iter Q -> offered crate f tys -> Forall sound0 args ->
  says f args r -> runs_in Q f args r.
Proof.
  intros G GT GI O S H. apply offered_not_hidden in O.
  assert (K : own_call get_free f args = true -> runs_in Q f args r).
  { intros A M L R. apply says_runs in H. destruct (runs_inv _ _ _ H M L R) as (N & X). exists N. intros n B.
    rewrite G by exact A. now apply X. }
  destruct H;
    try discriminate O;
    try (apply K; clear;
         repeat match goal with
         | ty : newtype |- _ => destruct ty
         | t : typed |- _ => destruct t
         | k : kind |- _ => destruct k
         | g : grandfathered |- _ => destruct g
         end; reflexivity);
    try (apply K; match goal with W : _ \/ _ |- _ => destruct W as [-> | ->]; reflexivity end); clear K.
  - (* Extensions::get *) intros M L R. exists (2000 + 2 * length s). intros n B.
    inversion S as [|? ? V _]; subst. apply tag_sound in V. apply GT; [lia|cbn in R; lia|].
    apply extensions_end_long. exact V.
  - (* Extensions::iter_extension *) intros M L R. exists (2000 + 2 * length s). intros n B.
    inversion S as [|? ? V _]; subst. apply tag_sound in V. apply GI; [lia|cbn in R; lia|].
    apply extensions_end_long. exact V.
Qed.
Definition keeps (Q : program) : Prop := forall f tys args r, offered crate f tys -> Forall sound0 args -> says f args r -> runs_in Q f args r.
Lemma keeps_results Q : keeps Q -> forall f tys args r, offered crate f tys -> Forall2 (has_type crate) tys args ->
  (forall a, In a args -> reached crate runs a) -> (runs f args r <-> runs_in Q f args r).
Proof.
  intros K f tys args r O T R.
  assert (S : Forall sound0 args) by (apply Forall_forall; intros a A; exact (reached_sound a (R a A))).
  destruct (call_sound f tys args O T S) as (q & H & _).
  exact (same_results Q f args q r (says_runs f args q H) (K f tys args q O S H)).
Qed.
Lemma same_keep Q : In Q same_programs -> keeps Q.
Proof.
  intros I f tys args r. unfold same_programs in I.
  destruct I as [<-|I]; [exact (backs_keep _ f tys args r back_gt_agrees back_gt_backs back_gt_lasts)|].
  destruct I as [<-|I]; [exact (gets_keep _ f tys args r get_le_agrees get_le_gets get_le_iter)|].
  destruct I as [<-|I]; [exact (gets_keep _ f tys args r get_two_agrees get_two_gets get_two_iter)|].
  destruct I as [<-|I]; [exact (backs_keep _ f tys args r start_ge_agrees start_ge_backs start_ge_lasts)|].
  destruct I as [<-|I]; [exact (backs_keep _ f tys args r start_one_agrees start_one_backs start_one_lasts)|].
  destruct I as [<-|I]; [exact (backs_keep _ f tys args r start_two_agrees start_two_backs start_two_lasts)|].
  destruct I as [<-|I]; [exact (backs_keep _ f tys args r start_last_agrees start_last_backs start_last_lasts)|].
  destruct I as [<-|I]; [exact (backs_keep _ f tys args r start_else_agrees start_else_backs start_else_lasts)|].
  destruct I.
Qed.

Lemma wide_results f tys args r : offered crate f tys -> Forall2 (has_type crate) tys args ->
  (forall a, In a args -> reached crate runs a) -> (runs f args r <-> runs_in try_le f args r).
Proof.
  intros O T R.
  assert (S : Forall sound0 args) by (apply Forall_forall; intros a A; exact (reached_sound a (R a A))).
  destruct (call_sound f tys args O T S) as (q & H & F). apply says_runs in H. apply (same_results try_le f args q r H).
  intros M L K. destruct (runs_inv _ _ _ H M L K) as (N & X). exists (100 + N). intros n B.
  destruct (try_le_upto M (n - 100) (VPath f) args) as [U|U]; rewrite (X (n - 100) ltac:(lia)) in U.
  - exfalso. rewrite U in F. destruct F as [(w & outs & F & _)|[F _]]; discriminate F.
  - rewrite U. f_equal. lia.
Qed.

(** Nine more: every function that is offered gives the same results to every client. *)
Theorem C79_same : forall P e i l, load files (Program [] [] [] [] []) = Some P ->
  In (e, i, l) (entry_edits in_grammar (fns P)) -> same_edit e i = true ->
  forall f tys args r, offered P f tys -> Forall2 (has_type P) tys args -> (forall a, In a args -> reached P runs a) ->
    (runs f args r <-> runs_in (Program l (consts P) (structs P) (enums P) (aliases P)) f args r).
Proof.
  intros P e i l L I S. rewrite crate_is_the_source in L. injection L as <-. fold (with_fns l). apply orb_prop in S as [S|S].
  - apply keeps_results, same_keep. rewrite <- same_edits_eq.
    change (with_fns l) with ((fun x : entry * nat * list entry => with_fns (snd x)) (e, i, l)). apply in_map. unfold same_edits.
    apply filter_In. split; [exact I|exact S].
  - assert (X : In (with_fns l) [try_le]).
    { rewrite <- wide_edits_eq. change (with_fns l) with ((fun x : entry * nat * list entry => with_fns (snd x)) (e, i, l)).
      apply in_map. unfold wide_edits. apply filter_In. split; [exact I|exact S]. }
    destruct X as [<-|[]]. exact wide_results.
Qed.

(** * Cases *)

(** Two functions and their edits: a condition the other way round, another operator, another number.  The source has 403. *)
Definition some_edits : bytes := text_bytes
"fn f(a: usize, b: usize) -> usize { if a < b { a + 1 } else { 2 } }
fn g(a: usize, b: usize) -> bool { a == b && b > 3 }
"%text.
Definition edited_by_hand : bytes := text_bytes
"fn g(a: usize, b: usize) -> bool { a == b || b > 3 }
fn g(a: usize, b: usize) -> bool { a != b && b > 3 }
fn g(a: usize, b: usize) -> bool { a == b && b >= 3 }
fn g(a: usize, b: usize) -> bool { a == b && b > 4 }
"%text.
Definition fns_of (is : list item) : list fn := map en_fn (rev (fns (fold_left (load_item "") is (Program [] [] [] [] [])))).
Example C79_case :
  (exists is f g, parse_test some_edits = Some is /\ fns_of is = [f; g] /\ length (fn_edits f) = 5 /\
    option_map fns_of (parse_test edited_by_hand) = Some (fn_edits g)) /\
  (let c := entry_edits in_grammar (fns crate) in
   length c = 403 /\ length (filter (fun x => same_edit (fst (fst x)) (snd (fst x))) c) = 9 /\
   length (filter (fun x => silent_edit (fst (fst x)) (snd (fst x))) c) = 8) /\
  exists e l, nth_error (entry_edits in_grammar (fns crate)) 390 = Some (e, 0, l) /\ fn_name (en_fn e) = "case_insensitive_eq" /\
    call 100 crate 300 (VPath ["Region"; "eq"]) [vtag RegionT (bs "FR"); vtag RegionT (bs "fr")] = Ret (VBool true, []) /\
    call 100 (with_fns l) 300 (VPath ["Region"; "eq"]) [vtag RegionT (bs "FR"); vtag RegionT (bs "fr")] = Ret (VBool false, []).
Proof.
  split.
  { eexists. eexists. eexists. split; [vm_compute; reflexivity|]. split; [vm_compute; reflexivity|]. split; vm_compute; reflexivity. }
  split; [repeat split; vm_compute; reflexivity|].
  eexists. eexists. split; [vm_compute; reflexivity|]. repeat split; vm_compute; reflexivity.
Qed.

Print Assumptions C79_noticed.
Print Assumptions C79_silent.
Print Assumptions C79_same.
