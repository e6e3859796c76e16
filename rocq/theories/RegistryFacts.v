(** Facts about the registration of message types. *)
From Verif Require Import Base BaseFacts SpecFrame NmdcHub NmdcKeyFacts Registry SpecRegistry.
From Coq Require Import Sorting.Permutation Sorting.Sorted.

Section Facts.
Context {V : Type}.
Implicit Types (r : type_map V) (calls : list (gotype V * V)).

Lemma find_app r r' n : find_type (r ++ r') n = match find_type r n with Some t => Some t | None => find_type r' n end.
Proof. induction r as [|[k t] r IH]; cbn [app find_type]; [reflexivity|]. destruct (bytes_eqb k n); [reflexivity|exact IH]. Qed.
Lemma find_none r n : find_type r n = None <-> ~ In n (map fst r).
Proof.
  induction r as [|[k t] r IH]; cbn [find_type map In fst]; [tauto|]. destruct (bytes_eqb k n) eqn:E.
  - apply bytes_eqb_true in E. split; [discriminate|tauto].
  - apply bytes_eqb_false in E. tauto.
Qed.
Lemma find_some r n t : NoDup (map fst r) -> find_type r n = Some t <-> In (n, t) r.
Proof.
  induction r as [|[k u] r IH]; intros D; cbn [find_type In map fst] in *; [split; [discriminate|tauto]|].
  inversion D as [|? ? N D']; subst. destruct (bytes_eqb k n) eqn:E.
  - apply bytes_eqb_true in E. subst k. split; [intros [= ->]; auto|]. intros [[= ->]|H]; [reflexivity|]. exfalso. apply N. apply in_map_iff. now exists (n, t).
  - apply bytes_eqb_false in E. rewrite (IH D'). split; [auto|]. intros [[= H _]|H]; [contradiction|exact H].
Qed.

Lemma first_nil n c : ~ first_call (V:=V) [] n c.
Proof. intros (b & a & E & _). destruct b; discriminate. Qed.
Lemma first_cons c0 calls n c : first_call (c0 :: calls) n c <-> call_name c0 = n /\ c = c0 \/ call_name c0 <> n /\ first_call calls n c.
Proof.
  split.
  - intros (b & a & E & N & F). destruct b as [|b0 b]; cbn in E; injection E as -> ->; [left; auto|]. inversion F; subst. right. split; [assumption|]. exists b, a. auto.
  - intros [[N ->]|[N (b & a & -> & M & F)]]; [exists [], calls; auto|]. exists (c0 :: b), a. repeat split; auto.
Qed.

Lemma register_spec calls : forall r r' ps, register_all calls r = (r', ps) ->
  (NoDup (map fst r) -> NoDup (map fst r')) /\ length ps = length calls /\
  (forall n t, find_type r' n = Some t <-> find_type r n = Some t \/ find_type r n = None /\ exists v, first_call calls n (t, v)) /\
  (forall before c after, calls = before ++ c :: after ->
     (nth (length before) ps false = true <-> find_type r (call_name c) <> None \/ exists b, In b before /\ call_name b = call_name c)).
Proof.
  induction calls as [|[t0 v0] calls IH]; intros r r' ps E; cbn [register_all] in E.
  - injection E as <- <-. split; [auto|]. split; [reflexivity|]. split.
    + intros n t. split; [auto|]. intros [H|(_ & v & H)]; [exact H|]. now apply first_nil in H.
    + intros b c a H. destruct b; discriminate.
  - destruct (register t0 v0 r) as [r1 p] eqn:R. destruct (register_all calls r1) as [r2 ps'] eqn:A. injection E as <- <-.
    destruct (IH _ _ _ A) as (D & L & F & P). clear IH A.
    assert (K : forall n, find_type r1 n = match find_type r n with Some t => Some t | None => if bytes_eqb (call_name (t0, v0)) n then Some t0 else None end).
    { intros n. unfold register in R. change (go_name t0 v0) with (call_name (t0, v0)) in R. destruct (find_type r (call_name (t0, v0))) as [u|] eqn:G; injection R as <- <-.
      - destruct (find_type r n) eqn:G'; [reflexivity|]. destruct (bytes_eqb (call_name (t0, v0)) n) eqn:E; [|reflexivity]. apply bytes_eqb_true in E. congruence.
      - rewrite find_app. reflexivity. }
    assert (Q : p = match find_type r (call_name (t0, v0)) with Some _ => true | None => false end).
    { unfold register in R. change (go_name t0 v0) with (call_name (t0, v0)) in R. destruct (find_type r (call_name (t0, v0))); injection R as _ <-; reflexivity. }
    split; [|split; [|split]].
    + intros N. apply D. clear - R N. unfold register in R. destruct (find_type r (go_name t0 v0)) eqn:G; injection R as <- _; [exact N|].
      rewrite map_app. cbn. apply find_none in G. apply (Permutation_NoDup (Permutation_cons_append _ _)). now constructor.
    + cbn. now rewrite L.
    + intros n t. rewrite F, K. destruct (find_type r n) eqn:G.
      * split; [intros [H|[H _]]; [now left|discriminate]|]. intros [H|[H _]]; [now left|discriminate].
      * destruct (bytes_eqb (call_name (t0, v0)) n) eqn:E.
        -- apply bytes_eqb_true in E. split.
           ++ intros [[= ->]|[H _]]; [|discriminate]. right. split; [reflexivity|]. exists v0. apply first_cons. auto.
           ++ intros [H|(_ & v & H)]; [discriminate|]. apply first_cons in H. destruct H as [[_ [= -> _]]|[H _]]; [auto|contradiction].
        -- apply bytes_eqb_false in E. split.
           ++ intros [H|(_ & v & H)]; [discriminate|]. right. split; [reflexivity|]. exists v. apply first_cons. auto.
           ++ intros [H|(_ & v & H)]; [discriminate|]. apply first_cons in H. destruct H as [[H _]|[_ H]]; [contradiction|]. right. eauto.
    + intros b c a H. destruct b as [|b0 b]; cbn in H; injection H as H1 H2.
      * subst c. cbn [length nth]. rewrite Q. destruct (find_type r (call_name (t0, v0))).
        -- split; [left; discriminate|reflexivity].
        -- split; [discriminate|]. intros [X|(x & [] & _)]. now contradiction X.
      * cbn [length nth]. rewrite (P b c a H2), K. subst b0. cbn [In]. destruct (find_type r (call_name c)) eqn:G.
        -- split; intros _; left; discriminate.
        -- destruct (bytes_eqb (call_name (t0, v0)) (call_name c)) eqn:E.
           ++ apply bytes_eqb_true in E. split; [|left; discriminate]. intros _. right. exists (t0, v0). auto.
           ++ apply bytes_eqb_false in E. split.
              ** intros [X|(x & X & Y)]; [now contradiction X|]. right. exists x. auto.
              ** intros [X|(x & [<-|X] & Y)]; [now contradiction X|contradiction|]. right. exists x. auto.
Qed.

Lemma register_app a b r : register_all (a ++ b) r =
  (fst (register_all b (fst (register_all a r))), snd (register_all a r) ++ snd (register_all b (fst (register_all a r)))).
Proof.
  revert r. induction a as [|[t v] a IH]; intros r; cbn [app register_all].
  - cbn [fst snd app]. now destruct (register_all b r).
  - destruct (register t v r) as [r1 p]. rewrite IH. destruct (register_all a r1) as [r2 ps]. cbn [fst snd]. now destruct (register_all b r2).
Qed.
(** Calls with different names that are not registered. *)
Lemma register_new calls : forall r, NoDup (map call_name calls) -> (forall c, In c calls -> find_type r (call_name c) = None) ->
  register_all calls r = (r ++ map (fun c => (call_name c, fst c)) calls, repeat false (length calls)).
Proof.
  induction calls as [|[t v] calls IH]; intros r D N; cbn [register_all map length repeat]; [now rewrite app_nil_r|].
  inversion D as [|? ? X D']; subst. unfold register. change (go_name t v) with (call_name (t, v)). rewrite (N _ (or_introl eq_refl)), IH.
  - now rewrite <- app_assoc.
  - exact D'.
  - intros c H. rewrite find_app, (N c (or_intror H)). cbn [find_type]. destruct (bytes_eqb _ _) eqn:E; [|reflexivity].
    apply bytes_eqb_true in E. exfalso. apply X. rewrite E. now apply in_map.
Qed.

Lemma never_iff calls n : never calls n <-> forall c, ~ first_call calls n c.
Proof.
  unfold never. induction calls as [|c0 calls IH].
  - split; [intros _ c; apply first_nil|constructor].
  - split.
    + intros F c. inversion F; subst. rewrite first_cons. intros [[H _]|[_ H]]; [contradiction|]. revert H. now apply IH.
    + intros H. assert (N : call_name c0 <> n) by (intros E; apply (H c0), first_cons; auto). constructor; [exact N|]. apply IH. intros c X. apply (H c), first_cons. auto.
Qed.

Lemma types_spec r visit : NoDup (map fst r) -> Permutation r visit ->
  Sorted string_le (type_list visit) /\ NoDup (type_list visit) /\ forall n, In n (type_list visit) <-> find_type r n <> None.
Proof.
  intros D P. assert (Q : Permutation (map fst r) (type_list visit)) by (unfold type_list; rewrite <- sort_perm; now apply Permutation_map).
  split; [apply sort_sorted|]. split; [exact (Permutation_NoDup Q D)|]. intros n. rewrite find_none. split.
  - intros H X. apply X. now rewrite Q.
  - intros H. rewrite <- Q. destruct (in_dec (list_eq_dec byte_eq_dec) n (map fst r)); [assumption|contradiction].
Qed.
End Facts.
