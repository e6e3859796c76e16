(** Lemmas about the functions of [Base]. *)
From Verif Require Import Base.

Lemma beq_spec a b : reflect (a = b) (beq a b).
Proof.
  unfold beq. destruct (Byte.eqb a b) eqn:E; constructor.
  - now apply byte_dec_bl.
  - intros ->. rewrite (byte_dec_lb eq_refl) in E. discriminate.
Qed.

Lemma beq_refl a : beq a a = true.
Proof. destruct (beq_spec a a); congruence. Qed.

Lemma beq_true a b : beq a b = true <-> a = b.
Proof. destruct (beq_spec a b); split; congruence. Qed.

Lemma beq_false a b : beq a b = false <-> a <> b.
Proof. destruct (beq_spec a b); split; congruence. Qed.

Lemma beq_sym a b : beq a b = beq b a.
Proof. destruct (beq_spec a b), (beq_spec b a); congruence. Qed.

Lemma byte_eq_dec (a b : byte) : {a = b} + {a <> b}.
Proof. destruct (beq_spec a b); auto. Qed.

Lemma b2n_lt b : (b2n b < 256)%N.
Proof. pose proof (Byte.to_N_bounded b). unfold b2n. lia. Qed.

Lemma n2b_b2n b : n2b (b2n b) = b.
Proof.
  unfold n2b. pose proof (b2n_lt b). rewrite N.mod_small by lia.
  unfold b2n. now rewrite Byte.of_to_N.
Qed.

Lemma b2n_n2b n : (n < 256)%N -> b2n (n2b n) = n.
Proof.
  intros H. unfold n2b. rewrite N.mod_small by lia.
  destruct (Byte.of_N n) eqn:E.
  - unfold b2n. now apply Byte.to_of_N.
  - apply Byte.of_N_None_iff in E. lia.
Qed.

Lemma b2n_n2b_mod n : b2n (n2b n) = (n mod 256)%N.
Proof.
  assert (H : n2b n = n2b (n mod 256)) by (unfold n2b; rewrite N.mod_mod; [reflexivity|discriminate]).
  rewrite H. apply b2n_n2b. apply N.mod_lt; discriminate.
Qed.

Lemma b2n_inj a b : b2n a = b2n b -> a = b.
Proof. intros H. rewrite <- (n2b_b2n a), <- (n2b_b2n b). now rewrite H. Qed.

(** To prove a boolean fact about every byte, compute it for all of them. *)
Definition all_bytes : list byte := map (fun n => n2b (N.of_nat n)) (seq 0 256).

Lemma all_bytes_in b : In b all_bytes.
Proof.
  unfold all_bytes. apply in_map_iff. exists (N.to_nat (b2n b)).
  rewrite N2Nat.id, n2b_b2n. split; [reflexivity|].
  apply in_seq. pose proof (b2n_lt b). lia.
Qed.

Lemma forall_byte (P : byte -> bool) :
  forallb P all_bytes = true -> forall b, P b = true.
Proof. intros H b. rewrite forallb_forall in H. apply H, all_bytes_in. Qed.

Lemma bytes_eqb_spec a b : reflect (a = b) (bytes_eqb a b).
Proof.
  revert b. induction a as [|x a IH]; destruct b as [|y b]; cbn; try (constructor; congruence).
  destruct (beq_spec x y) as [->|]; cbn.
  - destruct (IH b); constructor; congruence.
  - constructor; congruence.
Qed.

Lemma bytes_eqb_refl a : bytes_eqb a a = true.
Proof. destruct (bytes_eqb_spec a a); congruence. Qed.

Lemma bytes_eqb_true a b : bytes_eqb a b = true <-> a = b.
Proof. destruct (bytes_eqb_spec a b); split; congruence. Qed.

Lemma bytes_eqb_false a b : bytes_eqb a b = false <-> a <> b.
Proof. destruct (bytes_eqb_spec a b); split; congruence. Qed.

Lemma bytes_eq_dec (a b : bytes) : {a = b} + {a <> b}.
Proof. destruct (bytes_eqb_spec a b); auto. Qed.

(** ** index_byte and cut *)

Lemma index_byte_app_notin c a s :
  ~ In c a -> index_byte c (a ++ s) = option_map (fun i => length a + i) (index_byte c s).
Proof.
  induction a as [|x a IH]; cbn; intros H.
  - destruct (index_byte c s); reflexivity.
  - destruct (beq_spec x c) as [->|]; [tauto|].
    rewrite IH by tauto. destruct (index_byte c s); reflexivity.
Qed.

Lemma index_byte_some c s i :
  index_byte c s = Some i <->
  exists a r, s = a ++ c :: r /\ ~ In c a /\ length a = i.
Proof.
  split.
  - revert i. induction s as [|x s IH]; cbn; intros i H; [discriminate|].
    destruct (beq_spec x c) as [->|Hn].
    + injection H as <-. exists [], s. cbn. auto.
    + destruct (index_byte c s) as [j|]; [|discriminate]. injection H as <-.
      destruct (IH j eq_refl) as (a & r & -> & Hin & Hl).
      exists (x :: a), r. cbn. intuition congruence.
  - intros (a & r & -> & Hin & <-). rewrite index_byte_app_notin by exact Hin.
    cbn. rewrite beq_refl. cbn. f_equal. lia.
Qed.

Lemma index_byte_none c s : index_byte c s = None <-> ~ In c s.
Proof.
  induction s as [|x s IH]; cbn; [tauto|].
  destruct (beq_spec x c) as [->|Hn].
  - split; [discriminate|tauto].
  - destruct (index_byte c s); cbn; intuition congruence.
Qed.

Lemma cut_spec c s a r : cut c s = Some (a, r) <-> s = a ++ c :: r /\ ~ In c a.
Proof.
  unfold cut. destruct (index_byte c s) as [i|] eqn:E.
  - apply index_byte_some in E as (a' & r' & -> & Hin & <-).
    rewrite firstn_app, firstn_all, Nat.sub_diag. cbn [firstn]. rewrite app_nil_r.
    replace (S (length a')) with (length (a' ++ [c])) by (rewrite app_length; cbn; lia).
    replace (a' ++ c :: r') with ((a' ++ [c]) ++ r') at 1 by (rewrite <- app_assoc; reflexivity).
    rewrite skipn_app, skipn_all, Nat.sub_diag. cbn.
    split.
    + intros [= <- <-]. auto.
    + intros [H Hin2].
      assert (a' = a /\ r' = r) as [-> ->]; [|reflexivity].
      clear -H Hin Hin2. revert a H Hin2. induction a' as [|x a' IH]; intros [|y a] H Hin2; cbn in *.
      * now injection H as ->.
      * injection H as -> _. tauto.
      * injection H as -> _. tauto.
      * injection H as -> H. destruct (IH ltac:(tauto) a H ltac:(tauto)) as [-> ->]. auto.
  - split; [discriminate|]. intros [-> Hin].
    apply index_byte_none in E. exfalso. apply E. rewrite in_app_iff. cbn. tauto.
Qed.

Lemma cut_app c a r : ~ In c a -> cut c (a ++ c :: r) = Some (a, r).
Proof. intros. apply cut_spec. auto. Qed.

Lemma cut_none c s : cut c s = None <-> ~ In c s.
Proof.
  unfold cut. rewrite <- index_byte_none. destruct (index_byte c s); split; congruence.
Qed.

Lemma contains_byte_spec c s : contains_byte c s = true <-> In c s.
Proof.
  unfold contains_byte. rewrite existsb_exists. split.
  - intros (x & Hin & H). apply beq_true in H. now subst.
  - intros H. exists c. rewrite beq_refl. auto.
Qed.

Lemma contains_byte_false c s : contains_byte c s = false <-> ~ In c s.
Proof. rewrite <- contains_byte_spec. destruct (contains_byte c s); split; congruence. Qed.

Lemma last_cut_spec c s a r : last_cut c s = Some (a, r) <-> s = a ++ c :: r /\ ~ In c r.
Proof.
  unfold last_cut, last_index_byte.
  destruct (index_byte c (rev s)) as [i|] eqn:E.
  - apply index_byte_some in E as (x & y & Hs & Hin & Hi).
    assert (Hs' : s = rev y ++ c :: rev x).
    { rewrite <- (rev_involutive s), Hs, rev_app_distr. cbn. rewrite <- app_assoc. reflexivity. }
    rewrite Hs' at 1 2 3 4. rewrite <- Hi.
    rewrite app_length. cbn [length]. rewrite !rev_length.
    replace (length y + S (length x) - 1 - length x) with (length (rev y)) by (rewrite rev_length; lia).
    rewrite firstn_app, firstn_all, Nat.sub_diag. cbn [firstn]. rewrite app_nil_r.
    replace (S (length (rev y))) with (length (rev y ++ [c])) by (rewrite app_length; cbn; lia).
    replace (rev y ++ c :: rev x) with ((rev y ++ [c]) ++ rev x) at 1 by (rewrite <- app_assoc; reflexivity).
    rewrite skipn_app, skipn_all, Nat.sub_diag. cbn.
    split.
    + intros [= <- <-]. split; [assumption|]. intros H. apply in_rev in H. rewrite ?rev_involutive in H. auto.
    + intros [H Hr]. rewrite Hs' in H.
      assert (E : rev (rev y ++ c :: rev x) = rev (a ++ c :: r)) by now rewrite H.
      rewrite !rev_app_distr in E. cbn in E. rewrite <- !app_assoc in E. cbn in E.
      rewrite !rev_involutive in E.
      assert (cut c (x ++ c :: y) = Some (rev r, rev a)).
      { apply cut_spec. split; [exact E|]. rewrite <- in_rev. exact Hr. }
      rewrite cut_app in H0 by assumption. injection H0 as -> ->. now rewrite !rev_involutive.
  - split; [discriminate|]. intros [-> Hr].
    apply index_byte_none in E. exfalso. apply E. rewrite <- in_rev, in_app_iff. cbn. tauto.
Qed.

Lemma last_cut_app c a r : ~ In c r -> last_cut c (a ++ c :: r) = Some (a, r).
Proof. intros. apply last_cut_spec. auto. Qed.

Lemma last_cut_none c s : last_cut c s = None <-> ~ In c s.
Proof.
  unfold last_cut, last_index_byte. rewrite (in_rev s c). rewrite <- index_byte_none.
  destruct (index_byte c (rev s)); split; congruence.
Qed.

Lemma last_index_byte_last_cut c s :
  last_index_byte c s = option_map (fun p => length (fst p)) (last_cut c s).
Proof.
  unfold last_cut, last_index_byte.
  destruct (index_byte c (rev s)) as [i|] eqn:E; [|reflexivity]. cbn.
  rewrite firstn_length_le; [reflexivity|]. lia.
Qed.

Lemma index_byte_cut c s :
  index_byte c s = option_map (fun p => length (fst p)) (cut c s).
Proof.
  unfold cut. destruct (index_byte c s) as [i|] eqn:E; [|reflexivity]. cbn.
  apply index_byte_some in E as (a & r & -> & _ & <-).
  rewrite firstn_app, firstn_all, Nat.sub_diag. cbn. now rewrite app_nil_r.
Qed.

(** ** Prefixes and suffixes *)

Lemma has_prefix_spec p s : has_prefix p s = true <-> exists r, s = p ++ r.
Proof.
  revert s. induction p as [|x p IH]; intros s; cbn.
  - split; [intros _; now exists s|reflexivity].
  - destruct s as [|y s]; [split; [discriminate|intros [r [=]]]|].
    rewrite andb_true_iff, beq_true, IH. split.
    + intros [-> [r ->]]. now exists r.
    + intros [r [= -> ->]]. split; [reflexivity|]. now exists r.
Qed.

Lemma has_prefix_app p r : has_prefix p (p ++ r) = true.
Proof. apply has_prefix_spec. now exists r. Qed.

Lemma has_suffix_spec p s : has_suffix p s = true <-> exists r, s = r ++ p.
Proof.
  unfold has_suffix. rewrite has_prefix_spec. split; intros [r H].
  - exists (rev r). rewrite <- (rev_involutive s), H, rev_app_distr, rev_involutive. reflexivity.
  - exists (rev r). now rewrite H, rev_app_distr.
Qed.

Lemma skipn_app_exact {A} (p r : list A) : skipn (length p) (p ++ r) = r.
Proof. rewrite skipn_app, skipn_all, Nat.sub_diag. reflexivity. Qed.

Lemma firstn_app_exact {A} (p r : list A) : firstn (length p) (p ++ r) = p.
Proof. rewrite firstn_app, firstn_all, Nat.sub_diag. cbn. apply app_nil_r. Qed.

Lemma trim_prefix_app p r : trim_prefix p (p ++ r) = r.
Proof. unfold trim_prefix. now rewrite has_prefix_app, skipn_app_exact. Qed.

Lemma trim_suffix_app p r : trim_suffix p (r ++ p) = r.
Proof.
  unfold trim_suffix.
  assert (H : has_suffix p (r ++ p) = true) by (apply has_suffix_spec; now exists r).
  rewrite H, app_length.
  replace (length r + length p - length p) with (length r) by lia.
  apply firstn_app_exact.
Qed.

Lemma trim_suffix_none p s : has_suffix p s = false -> trim_suffix p s = s.
Proof. unfold trim_suffix. now intros ->. Qed.

(** ** index and cut_seq *)

(** [occurs p s]: [p] is a contiguous part of [s]. *)
Definition occurs (p s : bytes) : Prop := exists a r, s = a ++ p ++ r.

Lemma index_none p s : index p s = None <-> ~ occurs p s.
Proof.
  induction s as [|x s IH]; cbn.
  - destruct (has_prefix p []) eqn:E.
    + split; [discriminate|]. intros H. exfalso. apply H.
      apply has_prefix_spec in E as [r E]. exists [], r. exact E.
    + split; [|reflexivity]. intros _ (a & r & H).
      destruct a; [|discriminate]. cbn in H.
      assert (has_prefix p [] = true) by (apply has_prefix_spec; now exists r). congruence.
  - destruct (has_prefix p (x :: s)) eqn:E.
    + split; [discriminate|]. intros H. exfalso. apply H.
      apply has_prefix_spec in E as [r E]. exists [], r. exact E.
    + destruct (index p s) eqn:Ei; cbn.
      * split; [discriminate|]. intros H. exfalso.
        destruct IH as [_ IH]. assert (Hn : ~ occurs p s).
        { intros (a & r & ->). apply H. exists (x :: a), r. reflexivity. }
        specialize (IH Hn). discriminate.
      * split; [|reflexivity]. intros _ (a & r & H).
        destruct a as [|y a]; cbn in H.
        -- assert (has_prefix p (x :: s) = true) by (apply has_prefix_spec; now exists r). congruence.
        -- injection H as -> H. apply (proj1 IH eq_refl). now exists a, r.
Qed.

Lemma index_some p s i :
  index p s = Some i ->
  exists r, s = firstn i s ++ p ++ r /\ i + length p <= length s /\ skipn (i + length p) s = r.
Proof.
  revert i. induction s as [|x s IH]; cbn; intros i H.
  - destruct (has_prefix p []) eqn:E; [|discriminate]. injection H as <-.
    apply has_prefix_spec in E as [r E]. destruct p; [|discriminate].
    exists []. cbn. auto.
  - destruct (has_prefix p (x :: s)) eqn:E.
    + injection H as <-. apply has_prefix_spec in E as [r E].
      exists r. cbn [firstn app]. split; [exact E|].
      assert (Hl : length (x :: s) = length (p ++ r)) by now rewrite E.
      rewrite app_length in Hl. cbn in Hl.
      split; [lia|]. cbn [Nat.add]. rewrite E. apply skipn_app_exact.
    + destruct (index p s) as [j|]; [|discriminate]. injection H as <-.
      destruct (IH j eq_refl) as (r & Hs & Hl & Hr).
      exists r. cbn. split; [congruence|]. split; [lia|exact Hr].
Qed.

Lemma index_first p a r i :
  index p (a ++ p ++ r) = Some i -> i <= length a.
Proof.
  revert i. induction a as [|x a IH]; intros i; cbn [app length].
  - destruct (p ++ r) eqn:E; cbn; rewrite <- ?E, ?has_prefix_app.
    + destruct p; [|discriminate]. cbn. intros [= <-]. lia.
    + intros [= <-]. lia.
  - cbn. destruct (has_prefix p (x :: a ++ p ++ r)); [intros [= <-]; lia|].
    destruct (index p (a ++ p ++ r)) as [j|]; [|discriminate]. intros [= <-].
    specialize (IH j eq_refl). lia.
Qed.

(** The first occurrence of [p] in [a ++ p ++ r] is the displayed one iff [p] does
    not occur in [a] followed by all but the last byte of [p]. *)
Lemma cut_seq_app p a r :
  p <> [] -> ~ occurs p (a ++ removelast p) -> cut_seq p (a ++ p ++ r) = Some (a, r).
Proof.
  intros Hp Hno. unfold cut_seq.
  destruct (index p (a ++ p ++ r)) as [i|] eqn:E.
  2:{ apply index_none in E. exfalso. apply E. now exists a, r. }
  pose proof (index_first _ _ _ _ E) as Hi.
  assert (i = length a) as ->.
  { destruct (Nat.eq_dec i (length a)) as [|Hne]; [assumption|]. exfalso. apply Hno.
    pose proof (index_some _ _ _ E) as (r' & Hs & Hl & _).
    destruct (@exists_last _ p Hp) as (p0 & c & Hpc).
    assert (Hrl : removelast p = p0) by (rewrite Hpc; apply removelast_last). rewrite Hrl.
    exists (firstn i (a ++ p ++ r)).
    exists (firstn (length (a ++ p0) - i - length p) r').
    set (u := firstn i (a ++ p ++ r)) in *.
    assert (Hlu : length u = i) by (unfold u; rewrite firstn_length; lia).
    assert (Heq : firstn (length (a ++ p0)) (a ++ p ++ r) = a ++ p0).
    { rewrite Hpc. replace (a ++ (p0 ++ [c]) ++ r) with ((a ++ p0) ++ ([c] ++ r)) by now rewrite <- !app_assoc.
      apply firstn_app_exact. }
    rewrite Hs in Heq. etransitivity; [symmetry; exact Heq|].
    rewrite firstn_app, Hlu. rewrite (firstn_all2 u) by (rewrite app_length; lia).
    f_equal. rewrite firstn_app. f_equal.
    apply firstn_all2. rewrite app_length, Hpc, app_length. cbn. lia. }
  rewrite firstn_app_exact.
  f_equal. f_equal. rewrite app_assoc. rewrite <- app_length. apply skipn_app_exact.
Qed.

Lemma cut_seq_none p s : cut_seq p s = None <-> ~ occurs p s.
Proof. unfold cut_seq. rewrite <- index_none. destruct (index p s); split; congruence. Qed.

Lemma cut_seq_some p s a r : cut_seq p s = Some (a, r) -> s = a ++ p ++ r.
Proof.
  unfold cut_seq. destruct (index p s) as [i|] eqn:E; [|discriminate].
  intros [= <- <-]. apply index_some in E as (r & Hs & Hl & Hr). now rewrite Hr.
Qed.

(** If the first byte of [p] is not in [a] and not in the rest of [p], the first
    occurrence is the displayed one. *)
Lemma occurs_in_first c p s : occurs (c :: p) s -> In c s.
Proof. intros (a & r & ->). rewrite in_app_iff. cbn. tauto. Qed.

Lemma not_occurs_overlap p a :
  p <> [] ->
  (forall c, nth_error p 0 = Some c -> ~ In c a /\ ~ In c (skipn 1 p)) ->
  ~ occurs p (a ++ removelast p).
Proof.
  intros Hp H (u & v & E). destruct p as [|c p]; [congruence|].
  destruct (H c eq_refl) as [H1 H2]. cbn in H2.
  assert (Hlen : length (a ++ removelast (c :: p)) = length (u ++ (c :: p) ++ v)) by now rewrite E.
  rewrite !app_length in Hlen. rewrite removelast_firstn_len, firstn_length in Hlen. cbn in Hlen.
  assert (Hn : nth_error (a ++ removelast (c :: p)) (length u) = Some c).
  { rewrite E. rewrite nth_error_app2 by lia. rewrite Nat.sub_diag. reflexivity. }
  destruct (Nat.lt_ge_cases (length u) (length a)) as [Hl|Hl].
  - rewrite nth_error_app1 in Hn by lia. apply nth_error_In in Hn. tauto.
  - lia.
Qed.

Lemma cut_seq_app_first c p a r :
  ~ In c a -> ~ In c p -> cut_seq (c :: p) (a ++ (c :: p) ++ r) = Some (a, r).
Proof.
  intros Ha Hp. apply cut_seq_app; [discriminate|].
  apply not_occurs_overlap; [discriminate|]. cbn. intros c' [= ->]. auto.
Qed.

(** ** split and join *)

Lemma split_byte_not_nil c s : split_byte c s <> [].
Proof.
  destruct s as [|x s]; cbn; [discriminate|].
  destruct (beq x c); [discriminate|]. destruct (split_byte c s); discriminate.
Qed.

Lemma split_byte_notin c s : ~ In c s -> split_byte c s = [s].
Proof.
  induction s as [|x s IH]; cbn; [reflexivity|]. intros H.
  destruct (beq_spec x c) as [->|]; [tauto|]. rewrite IH by tauto. reflexivity.
Qed.

Lemma split_byte_app c a s : ~ In c a -> split_byte c (a ++ c :: s) = a :: split_byte c s.
Proof.
  induction a as [|x a IH]; cbn; intros H.
  - now rewrite beq_refl.
  - destruct (beq_spec x c) as [->|]; [tauto|]. rewrite IH by tauto. reflexivity.
Qed.

Lemma join_cons2 sep x y l : join sep (x :: y :: l) = x ++ sep ++ join sep (y :: l).
Proof. reflexivity. Qed.

Lemma split_byte_join c l :
  l <> [] -> (forall x, In x l -> ~ In c x) -> split_byte c (join [c] l) = l.
Proof.
  induction l as [|x l IH]; [congruence|]. intros _ H.
  destruct l as [|y l].
  - cbn. apply split_byte_notin. apply H. now left.
  - rewrite join_cons2. change ([c] ++ join [c] (y :: l)) with (c :: join [c] (y :: l)).
    rewrite split_byte_app by (apply H; now left).
    f_equal. apply IH; [discriminate|]. intros z Hz. apply H. now right.
Qed.

Lemma join_split_byte c s : join [c] (split_byte c s) = s.
Proof.
  induction s as [|x s IH]; cbn; [reflexivity|].
  destruct (beq_spec x c) as [->|].
  - pose proof (split_byte_not_nil c s). destruct (split_byte c s) as [|h r] eqn:E; [congruence|].
    rewrite join_cons2, IH. reflexivity.
  - destruct (split_byte c s) as [|h r] eqn:E; [now apply split_byte_not_nil in E|].
    destruct r as [|h2 r].
    + cbn in *. congruence.
    + rewrite join_cons2 in *. rewrite <- IH. reflexivity.
Qed.

Lemma split_byte_pieces c s x : In x (split_byte c s) -> ~ In c x.
Proof.
  revert x. induction s as [|y s IH]; cbn; intros x.
  - intros [<-|[]]. auto.
  - destruct (beq_spec y c) as [->|Hn].
    + intros [<-|H]; [auto|]. now apply IH.
    + pose proof (split_byte_not_nil c s). destruct (split_byte c s) as [|h r]; [congruence|].
      intros [<-|H'].
      * cbn. intros [->|Hin]; [congruence|]. apply (IH h); [now left|assumption].
      * apply IH. now right.
Qed.

Lemma split_byte_count c s : length (split_byte c s) = S (count_byte c s).
Proof.
  induction s as [|x s IH]; cbn; [reflexivity|].
  destruct (beq x c); cbn; [lia|].
  destruct (split_byte c s) as [|h r]; cbn in *; lia.
Qed.

Lemma count_byte_app c a b : count_byte c (a ++ b) = count_byte c a + count_byte c b.
Proof. induction a as [|x a IH]; cbn; [reflexivity|]. rewrite IH. lia. Qed.

Lemma count_byte_notin c s : ~ In c s -> count_byte c s = 0.
Proof.
  induction s as [|x s IH]; cbn; [reflexivity|]. intros H.
  destruct (beq_spec x c) as [->|]; [tauto|]. cbn. apply IH. tauto.
Qed.

Lemma count_byte_zero c s : count_byte c s = 0 -> ~ In c s.
Proof.
  induction s as [|x s IH]; cbn; [tauto|]. destruct (beq_spec x c) as [->|]; cbn; [lia|].
  intros H [->|Hin]; [congruence|]. now apply IH.
Qed.

Lemma join_in c sep l : In c (join sep l) -> In c sep \/ exists x, In x l /\ In c x.
Proof.
  induction l as [|x l IH]; cbn; [tauto|]. destruct l as [|y l].
  - intros H. right. exists x. auto.
  - rewrite !in_app_iff. intros [H|[H|H]].
    + right. exists x. auto.
    + auto.
    + destruct (IH H) as [|(z & Hz & Hc)]; [auto|]. right. exists z. cbn. tauto.
Qed.

(** Splitting at a longer separator. *)
Lemma split_seq_fuel_join p l f :
  p <> [] -> l <> [] ->
  (forall x, In x l -> ~ occurs p (x ++ removelast p)) ->
  (forall x, In x l -> ~ occurs p x) ->
  length (join p l) <= f ->
  split_seq_fuel f p (join p l) = l.
Proof.
  intros Hp. revert f. induction l as [|x l IH]; intros f Hl H1 H2 Hf; [congruence|].
  destruct l as [|y l].
  - cbn [join]. assert (E : cut_seq p x = None) by (apply cut_seq_none, H2; now left).
    destruct f; cbn; [reflexivity|]. now rewrite E.
  - rewrite join_cons2 in *. rewrite !app_length in Hf.
    destruct f as [|f]; [destruct p; [congruence|cbn in Hf; lia]|].
    cbn [split_seq_fuel]. rewrite cut_seq_app by (try assumption; apply H1; now left).
    f_equal. apply IH.
    + discriminate.
    + intros z Hz. apply H1. now right.
    + intros z Hz. apply H2. now right.
    + destruct p; [congruence|cbn [length] in Hf; lia].
Qed.

Lemma split_seq_join p l :
  p <> [] -> l <> [] ->
  (forall x, In x l -> ~ occurs p (x ++ removelast p)) ->
  (forall x, In x l -> ~ occurs p x) ->
  split_seq p (join p l) = l.
Proof. intros. unfold split_seq. now apply split_seq_fuel_join. Qed.

(** ** splitn *)

Lemma splitn_byte_cut n c a s :
  ~ In c a -> splitn_byte (S (S n)) c (a ++ c :: s) = a :: splitn_byte (S n) c s.
Proof. intros H. cbn [splitn_byte]. now rewrite cut_app. Qed.

Lemma splitn_byte_notin n c s : ~ In c s -> splitn_byte (S n) c s = [s].
Proof.
  intros H. destruct n; [reflexivity|]. cbn [splitn_byte].
  now rewrite (proj2 (cut_none c s)).
Qed.

(** ** Miscellaneous *)

Lemma in_app_not {A} (c : A) a b : ~ In c a -> ~ In c b -> ~ In c (a ++ b).
Proof. rewrite in_app_iff. tauto. Qed.

Lemma drop_while_forall f s : forallb f s = true -> drop_while f s = [].
Proof.
  induction s as [|x s IH]; cbn; [reflexivity|]. rewrite andb_true_iff. intros [-> H]. auto.
Qed.

Lemma drop_while_app f a s : forallb f a = true -> drop_while f (a ++ s) = drop_while f s.
Proof.
  induction a as [|x a IH]; cbn; [reflexivity|]. rewrite andb_true_iff. intros [-> H]. auto.
Qed.

Lemma drop_while_suffix f s : exists a, s = a ++ drop_while f s /\ forallb f a = true.
Proof.
  induction s as [|x s [a [IH1 IH2]]]; cbn; [now exists []|].
  destruct (f x) eqn:E.
  - exists (x :: a). cbn. rewrite E. split; [congruence|assumption].
  - now exists [].
Qed.

Lemma drop_while_head f s x t : drop_while f s = x :: t -> f x = false.
Proof.
  induction s as [|y s IH]; cbn; [discriminate|]. destruct (f y) eqn:E; [assumption|].
  intros [= -> ->]. exact E.
Qed.

Lemma forallb_rev {A} (f : A -> bool) l : forallb f (rev l) = forallb f l.
Proof.
  induction l as [|x l IH]; cbn; [reflexivity|]. rewrite forallb_app, IH. cbn. rewrite andb_true_r. apply andb_comm.
Qed.

Lemma bind_ok {A C} (r : res A) (f : A -> res C) c :
  bind r f = Ok c <-> exists a, r = Ok a /\ f a = Ok c.
Proof.
  destruct r; cbn; split; intros H.
  - now exists a.
  - destruct H as (a' & [= <-] & H). exact H.
  - discriminate.
  - destruct H as (a' & H & _). discriminate.
  - discriminate.
  - destruct H as (a' & H & _). discriminate.
Qed.

Lemma bind_panic {A C} (r : res A) (f : A -> res C) :
  bind r f = Panic <-> r = Panic \/ exists a, r = Ok a /\ f a = Panic.
Proof.
  destruct r; cbn; split; intros H.
  - right. now exists a.
  - destruct H as [H|(a' & [= <-] & H)]; [discriminate|exact H].
  - discriminate.
  - destruct H as [H|(a' & H & _)]; discriminate.
  - now left.
  - reflexivity.
Qed.
