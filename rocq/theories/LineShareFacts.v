(** Facts about LineShare.v. *)
From Verif Require Import Base LineReader LineShare SpecShare.

(** ** Memory *)
Lemma array_put_same : forall a b m, (a < length m)%nat -> array (put_array a b m) a = b.
Proof. unfold array. induction a; intros b [|x m] H; simpl in *; try lia; auto. apply IHa. lia. Qed.
Lemma array_put_other : forall a b m c, c <> a -> array (put_array a b m) c = array m c.
Proof.
  unfold array. induction a; intros b [|x m] c H; simpl; auto; destruct c; simpl; auto; try congruence.
Qed.
Lemma length_put : forall a b m, length (put_array a b m) = length m.
Proof. induction a; intros b [|x m]; simpl; auto. Qed.
Lemma array_app_l : forall m x c, (c < length m)%nat -> array (m ++ x) c = array m c.
Proof. intros. unfold array. apply app_nth1; auto. Qed.
Lemma array_app_new : forall m b, array (m ++ [b]) (length m) = b.
Proof. intros. unfold array. rewrite app_nth2, Nat.sub_diag; auto. Qed.

Lemma length_splice : forall i d b, (i + length d <= length b)%nat -> length (splice i d b) = length b.
Proof. intros. unfold splice. rewrite !app_length, firstn_length, skipn_length. lia. Qed.

(** A slice at the beginning of an array of the memory. *)
Definition fits (m : memory) (s : slice) : Prop :=
  (sl_arr s < length m)%nat /\ sl_off s = 0%nat /\ (sl_len s <= length (array m (sl_arr s)))%nat.

Lemma view_fits : forall m s, fits m s -> view m s = firstn (sl_len s) (array m (sl_arr s)).
Proof. intros m s (_ & O & _). unfold view. rewrite O. auto. Qed.
Lemma length_view : forall m s, fits m s -> length (view m s) = sl_len s.
Proof. intros m s F. rewrite view_fits; auto. destruct F as (_ & _ & L). rewrite firstn_length. lia. Qed.

Lemma nth_error_array : forall m a, (a < length m)%nat -> nth_error m a = Some (array m a).
Proof. intros. unfold array. apply nth_error_nth'. auto. Qed.

Lemma nth_error_firstn_lt {A} : forall n i (l : list A), (i < n)%nat -> nth_error (firstn n l) i = nth_error l i.
Proof. induction n; intros i l H; [lia|]. destruct l, i; simpl; auto. apply IHn. lia. Qed.
Lemma nth_error_skipn {A} : forall n i (l : list A), nth_error (skipn n l) i = nth_error l (n + i).
Proof. induction n; intros i l; simpl; auto. destruct l; simpl; auto. destruct i; auto. Qed.

(** [holds] is [view] for slices within the memory. *)
Definition within (m : memory) (s : slice) : Prop :=
  (sl_arr s < length m)%nat /\ (sl_off s + sl_len s <= length (array m (sl_arr s)))%nat.
Lemma fits_within : forall m s, fits m s -> within m s.
Proof. intros m s (A & O & L). split; auto. lia. Qed.
Lemma holds_view : forall m s, within m s -> holds m s (view m s).
Proof.
  intros m s (A & L). split.
  - unfold view. rewrite firstn_length, skipn_length. lia.
  - exists (array m (sl_arr s)). split. { apply nth_error_array; auto. }
    intros i H. unfold view. rewrite nth_error_firstn_lt, nth_error_skipn; auto.
Qed.
Lemma holds_within : forall m s l, holds m s l -> (0 < sl_len s)%nat -> within m s.
Proof.
  intros m s l (L & b & Hb & N) P.
  assert (A : (sl_arr s < length m)%nat) by (apply nth_error_Some; congruence).
  split; auto. rewrite nth_error_array in Hb; auto. inversion Hb; subst.
  specialize (N (sl_len s - 1)%nat ltac:(lia)).
  assert (nth_error (array m (sl_arr s)) (sl_off s + (sl_len s - 1)) <> None).
  { rewrite N. apply nth_error_Some. lia. }
  apply nth_error_Some in H. lia.
Qed.
Lemma nth_error_ext' {A} : forall (a b : list A), length a = length b ->
  (forall i, (i < length a)%nat -> nth_error a i = nth_error b i) -> a = b.
Proof.
  induction a as [|x a IH]; intros [|y b] L H; simpl in L; try lia; auto.
  pose proof (H 0%nat ltac:(simpl; lia)) as E. simpl in E. inversion E; subst. f_equal.
  apply IH; [lia|]. intros i K. apply (H (S i)). simpl. lia.
Qed.
Lemma holds_is_view : forall m s l, holds m s l -> l = view m s.
Proof.
  intros m s l (L & b & Hb & N).
  assert (A : (sl_arr s < length m)%nat) by (apply nth_error_Some; congruence).
  rewrite nth_error_array in Hb; auto. inversion Hb; subst b.
  destruct (sl_len s) eqn:E.
  { destruct l; [|discriminate]. unfold view. rewrite E. auto. }
  assert (P : (sl_off s + sl_len s <= length (array m (sl_arr s)))%nat).
  { rewrite E. specialize (N n ltac:(lia)).
    assert (nth_error (array m (sl_arr s)) (sl_off s + n) <> None).
    { rewrite N. apply nth_error_Some. lia. }
    apply nth_error_Some in H. lia. }
  apply nth_error_ext'.
  - unfold view. rewrite firstn_length, skipn_length. lia.
  - intros i K. rewrite <- N by lia. unfold view.
    rewrite nth_error_firstn_lt, nth_error_skipn by lia. auto.
Qed.

(** ** append and the changes of the memory *)
Section Facts.
Context {W zstate : Type} (act : zstate -> zaction zstate) (zinit : zstate) (grow : nat -> nat -> nat).

Lemma append_fits : forall m s d m' s', fits m s -> append_to grow m s d = (m', s') ->
  fits m' s' /\ view m' s' = view m s ++ d /\ sl_len s' = (sl_len s + length d)%nat.
Proof.
  intros m s d m' s' F E. unfold append_to in E. pose proof F as (A & O & L).
  destruct (sl_off s + sl_len s + length d <=? length (array m (sl_arr s)))%nat eqn:C.
  - apply Nat.leb_le in C. inversion E; subst m' s'; clear E.
    assert (LS : length (splice (sl_off s + sl_len s) d (array m (sl_arr s))) = length (array m (sl_arr s)))
      by (apply length_splice; lia).
    assert (F' : fits (put_array (sl_arr s) (splice (sl_off s + sl_len s) d (array m (sl_arr s))) m)
                   (mkSlice (sl_arr s) (sl_off s) (sl_len s + length d))).
    { repeat split; simpl; auto.
      - rewrite length_put. auto.
      - rewrite array_put_same; auto. rewrite LS. lia. }
    split; [exact F'|]. split; [|reflexivity].
    rewrite (view_fits _ _ F'), (view_fits _ _ F). cbn [sl_arr sl_len]. rewrite array_put_same by auto.
    unfold splice. rewrite O. cbn [plus].
    rewrite firstn_app, firstn_firstn, firstn_length, (Nat.min_r (sl_len s + length d) (sl_len s)) by lia.
    replace (sl_len s + length d - Nat.min (sl_len s) (length (array m (sl_arr s))))%nat with (length d) by lia.
    rewrite firstn_app, firstn_all, Nat.sub_diag. simpl. rewrite app_nil_r. auto.
  - inversion E; subst m' s'; clear E.
    pose proof (length_view m s F) as LV.
    assert (F' : fits (m ++ [(view m s ++ d) ++ repeat x00 (grow (length (array m (sl_arr s)) - sl_off s) (length (view m s ++ d)) - length (view m s ++ d))])
                 (mkSlice (length m) 0 (length (view m s ++ d)))).
    { repeat split; simpl.
      - rewrite app_length. simpl. lia.
      - rewrite array_app_new, (app_length (view m s ++ d)). apply Nat.le_add_r. }
    split; [exact F'|]. split.
    + rewrite (view_fits _ _ F'). cbn [sl_arr sl_len]. rewrite array_app_new.
      rewrite firstn_app, firstn_all, Nat.sub_diag. simpl. rewrite app_nil_r. auto.
    + cbn [sl_len]. rewrite app_length. lia.
Qed.

(** Only the array of the line (or new ones) change; the buffer never shrinks. *)
Definition frame (m : memory) (a : nat) (m' : memory) (a' : nat) : Prop :=
  (length m <= length m')%nat /\
  (forall c, (c < length m)%nat -> c <> a -> array m' c = array m c) /\
  length (array m' a) = length (array m a) /\
  (a' = a \/ (length m <= a')%nat) /\
  (length (array m a) <= length (array m' a'))%nat.
Lemma frame_refl : forall m a, frame m a m a.
Proof. intros. repeat split; auto. Qed.
Lemma frame_trans : forall m a m1 a1 m2 a2, (a < length m)%nat ->
  frame m a m1 a1 -> frame m1 a1 m2 a2 -> frame m a m2 a2.
Proof.
  intros m a m1 a1 m2 a2 A (L1 & K1 & S1 & P1 & C1) (L2 & K2 & S2 & P2 & C2).
  repeat split; try lia.
  - intros c Hc Na. rewrite <- K1 by auto. apply K2; try lia.
  - destruct (Nat.eq_dec a a1) as [->|N]; [lia|]. rewrite K2; auto. lia.
Qed.

Lemma append_frame : forall m s d m' s', fits m s -> append_to grow m s d = (m', s') ->
  frame m (sl_arr s) m' (sl_arr s').
Proof.
  intros m s d m' s' F E. unfold append_to in E. pose proof F as (A & O & L).
  destruct (sl_off s + sl_len s + length d <=? length (array m (sl_arr s)))%nat eqn:C; inversion E; subst; clear E; simpl.
  - apply Nat.leb_le in C.
    repeat split; auto; try (rewrite array_put_same by auto; rewrite length_splice by lia; lia).
    + rewrite length_put. lia.
    + intros c H N. apply array_put_other. auto.
  - apply Nat.leb_gt in C. repeat split; auto.
    + rewrite app_length. lia.
    + intros c H N. apply array_app_l. auto.
    + rewrite array_app_l; auto.
    + rewrite array_app_new, !app_length, (length_view _ _ F). lia.
Qed.

Lemma edit_fits : forall m s n, fits m s -> fits (edit m s n) s /\ view (edit m s n) s = over n (view m s) /\
  frame m (sl_arr s) (edit m s n) (sl_arr s).
Proof.
  intros m s n F. pose proof F as (A & O & L). unfold edit.
  assert (LS : length (splice (sl_off s) (firstn (sl_len s) n) (array m (sl_arr s))) = length (array m (sl_arr s))).
  { apply length_splice. rewrite firstn_length. lia. }
  assert (F' : fits (put_array (sl_arr s) (splice (sl_off s) (firstn (sl_len s) n) (array m (sl_arr s))) m) s).
  { repeat split; auto. rewrite length_put; auto. rewrite array_put_same by auto. lia. }
  split; [exact F'|]. split.
  - rewrite (view_fits _ _ F'). unfold over. rewrite (length_view _ _ F), (view_fits _ _ F), array_put_same by auto.
    unfold splice. rewrite O. simpl. rewrite firstn_app, firstn_firstn, Nat.min_id. f_equal.
    rewrite firstn_skipn_comm. rewrite firstn_length.
    destruct (Nat.le_ge_cases (length n) (sl_len s)).
    + rewrite Nat.min_r by lia. replace (length n + (sl_len s - length n))%nat with (sl_len s) by lia. auto.
    + rewrite Nat.min_l by lia. rewrite Nat.sub_diag, Nat.add_0_r. 
      rewrite skipn_all2 by (rewrite firstn_length; lia). rewrite skipn_all2; auto. rewrite firstn_length. lia.
  - repeat split; auto; try (rewrite array_put_same by auto; lia).
    + rewrite length_put. lia.
    + intros. apply array_put_other; auto.
Qed.

(** ** Hooks *)
Lemma hooks_edit : forall hs w m s w' m' r, fits m s -> share_hooks hs w m s = (w', m', r) ->
  fits m' s /\ frame m (sl_arr s) m' (sl_arr s) /\ edits (W:=W) hs w (view m s) w' (view m' s) r.
Proof.
  induction hs as [|h t IH]; intros w m s w' m' r F E; simpl in E.
  - inversion E; subst. split; auto. split; [apply frame_refl|constructor].
  - destruct (h w (view m s)) as [[w1 l] x] eqn:Hh.
    destruct (edit_fits m s l F) as (F1 & V1 & R1).
    destruct x.
    + destruct (IH _ _ _ _ _ _ F1 E) as (F2 & R2 & E2). split; auto. split.
      * eapply frame_trans; eauto. apply F.
      * rewrite V1 in E2. econstructor; eauto.
    + inversion E; subst. split; auto. split; auto. rewrite V1. eapply ed_stop; eauto. discriminate.
    + inversion E; subst. split; auto. split; auto. rewrite V1. eapply ed_stop; eauto. discriminate.
Qed.

(** ** The same reader with other hooks *)
Definition rehook {W1 W2} (hs : list (hook W2)) (r : reader W1 zstate) : reader W2 zstate :=
  mkReader (rd_delim r) (rd_max r) (rd_open r) (rd_conn r) (rd_orig r) (rd_zlib_on r) (rd_zcur r)
    (rd_z r) (rd_comp r) hs.
Lemma same_rehook {W1 W2} : forall (a : reader W1 zstate) (b : reader W2 zstate),
  same_but_hooks a b -> b = rehook (rd_hooks b) a.
Proof.
  intros a b (H1 & H2 & H3 & H4 & H5 & H6 & H7 & H8 & H9). unfold rehook.
  rewrite H1, H2, H3, H4, H5, H6, H7, H8, H9. destruct b; reflexivity.
Qed.
Lemma rehook_same {W1 W2} : forall (a : reader W1 zstate) (hs : list (hook W2)), same_but_hooks a (rehook hs a).
Proof. intros. repeat split. Qed.

Lemma under_rehook {W1 W2} : forall fuel n (r : reader W1 zstate) (hs : list (hook W2)),
  under_read act fuel n (rehook hs r) =
  match under_read act fuel n r with Some (o, r') => Some (o, rehook hs r') | None => None end.
Proof.
  intros. unfold under_read. simpl. destruct (rd_zcur r).
  - destruct (zread act fuel n (rd_z r) (rd_orig r) (rd_conn r)) as [[[[o z] b] c]|]; auto.
  - destruct (conn_read n (rd_conn r)) as [[d e] c]. auto.
Qed.
Lemma scan_buf_rehook {W1 W2} : forall d b (r : reader W1 zstate) (hs : list (hook W2)),
  scan_buf d b (rehook hs r) = let (o, r') := scan_buf d b r in (o, rehook hs r').
Proof.
  intros. unfold scan_buf. destruct (index_byte d b); unfold set_cur_buf; simpl; destruct (rd_zcur r); auto.
Qed.
Lemma scan_rehook {W1 W2} : forall fuel (r : reader W1 zstate) (hs : list (hook W2)),
  scan act fuel (rehook hs r) =
  match scan act fuel r with Some (o, r') => Some (o, rehook hs r') | None => None end.
Proof.
  intros. unfold scan. replace (cur_buf (rehook hs r)) with (cur_buf r) by reflexivity.
  destruct (cur_buf r) as [|c t] eqn:E.
  - rewrite under_rehook. destruct (under_read act fuel read_buf r) as [[[[d e]|e|] r']|]; auto.
    simpl (rd_delim (rehook hs r)).
    destruct d as [|c d].
    + destruct e; auto. rewrite scan_buf_rehook. destruct (scan_buf (rd_delim r) [] r'); auto.
    + destruct e; rewrite scan_buf_rehook; destruct (scan_buf (rd_delim r) (c :: d) r'); auto.
  - simpl (rd_delim (rehook hs r)). rewrite scan_buf_rehook.
    destruct (scan_buf (rd_delim r) (c :: t) r); auto.
Qed.

(** ** The loop *)
Definition agree (x : option (share_out * W * memory * slice * reader unit zstate))
  (y : option (line_out * (W * bytes) * reader (W * bytes) zstate)) (hs' : list (hook (W * bytes))) (m : memory) (a : nat) : Prop :=
  match x, y with
  | None, None => True
  | Some (so, w1, m1, s1, r1), Some (lo, (w2, x2), r2) =>
      w1 = w2 /\ r2 = rehook hs' r1 /\ fits m1 s1 /\ frame m a m1 (sl_arr s1) /\
      match so, lo with
      | SLine s, LLine l => s = s1 /\ view m1 s = x2
      | SErr (Some s) e, LErr (Some p) e' => s = s1 /\ view m1 s = p /\ e = e'
      | SErr None e, LErr None e' => e = e'
      | SPanic, LPanic => True
      | _, _ => False
      end
  | _, _ => False
  end.
Lemma agree_frame : forall x y hs m a m' a', (a < length m)%nat -> frame m a m' a' -> agree x y hs m' a' -> agree x y hs m a.
Proof.
  intros x y hs m a m' a' A F G. unfold agree in *.
  destruct x as [[[[[so w1] m1] s1] r1]|]; auto.
  destruct y as [[[lo [w2 x2]] r2]|]; auto.
  destruct G as (G1 & G2 & G3 & G4 & G5).
  split; [exact G1|]. split; [exact G2|]. split; [exact G3|]. split; [|exact G5]. eapply frame_trans; eauto.
Qed.

Lemma loop_agrees : forall hs h, stands_for hs h -> forall fuel w x m s r line,
  fits m s -> view m s = line ->
  agree (share_loop act grow fuel hs w m s r) (read_loop act fuel (w, x) line (rehook [h] r)) [h] m (sl_arr s).
Proof.
  intros hs h ST. induction fuel as [|f IH]; intros w x m s r line F V; [exact Logic.I|].
  pose proof (length_view m s F) as LV. rewrite V in LV. pose proof F as (A & O & L).
  cbn [share_loop read_loop]. rewrite LV. cbn [rd_max rehook].
  destruct ((0 <? rd_max r) && (rd_max r <=? Z.of_nat (sl_len s)))%Z%bool.
  { simpl. repeat (split; auto). }
  change (mkReader (rd_delim r) (rd_max r) (rd_open r) (rd_conn r) (rd_orig r) (rd_zlib_on r) (rd_zcur r)
    (rd_z r) (rd_comp r) [h]) with (rehook [h] r).
  rewrite scan_rehook. destruct (scan act f r) as [[[[pref more]|e|] r']|]; [| | |exact Logic.I].
  - destruct (append_to grow m s pref) as [m1 s1] eqn:EA.
    destruct (append_fits _ _ _ _ _ F EA) as (F1 & V1 & L1).
    pose proof (append_frame _ _ _ _ _ F EA) as R1.
    rewrite V in V1.
    destruct more.
    + eapply agree_frame; [exact A|exact R1|]. apply IH; auto.
    + destruct (share_hooks hs w m1 s1) as [[w2 m2] res] eqn:EH.
      destruct (hooks_edit _ _ _ _ _ _ _ F1 EH) as (F2 & R2 & E2).
      rewrite V1 in E2. apply (ST _ x) in E2.
      cbn [rd_hooks rehook run_hooks]. rewrite E2.
      assert (R : frame m (sl_arr s) m2 (sl_arr s1)) by (eapply frame_trans; eauto).
      destruct res.
      * simpl. repeat (split; auto).
      * eapply agree_frame; [exact A|exact R|].
        apply (IH w2 (view m2 s1) m2 (mkSlice (sl_arr s1) (sl_off s1) 0) r' []); auto.
        destruct F2 as (X & Y & Z). repeat split; simpl; auto. lia.
      * simpl. repeat (split; auto).
  - cbn [rd_zlib_on rehook]. destruct (is_eof e && rd_zlib_on r')%bool.
    + apply (IH w x m s (with_mode false false r') line F V).
    + destruct (append_to grow m s []) as [m1 s1] eqn:EA.
      destruct (append_fits _ _ _ _ _ F EA) as (F1 & V1 & L1).
      pose proof (append_frame _ _ _ _ _ F EA) as R1.
      rewrite app_nil_r in V1. simpl. repeat (split; auto). congruence.
  - simpl. repeat (split; auto).
Qed.

(** ** What is written to the first array, without hooks *)
Definition written (m : memory) (s : slice) (a0 : nat) (arr0 : bytes) : Prop :=
  (a0 < length m)%nat /\
  exists k, (k <= sl_len s)%nat /\ array m a0 = firstn k (view m s) ++ skipn k arr0 /\
    ((sl_arr s = a0 /\ k = sl_len s) \/ (sl_arr s <> a0 /\ (length arr0 < sl_len s)%nat)).
Lemma written_append : forall m s d m' s' a0 arr0, fits m s -> append_to grow m s d = (m', s') ->
  written m s a0 arr0 -> written m' s' a0 arr0.
Proof.
  intros m s d m' s' a0 arr0 F E (A0 & k & K & EQ & ALT).
  pose proof F as (A & O & L). destruct (append_fits _ _ _ _ _ F E) as (F1 & V1 & L1).
  pose proof (length_view m s F) as LV.
  unfold append_to in E.
  destruct (sl_off s + sl_len s + length d <=? length (array m (sl_arr s)))%nat eqn:C; inversion E; subst m' s'; clear E.
  - apply Nat.leb_le in C. destruct ALT as [[EA EK]|[NA LA]].
    + subst a0 k. split; [rewrite length_put; auto|]. exists (sl_len s + length d)%nat.
      split; [simpl; lia|]. split; [|left; auto].
      rewrite V1, array_put_same by auto. unfold splice. rewrite O. simpl.
      rewrite EQ.
      rewrite (firstn_all2 (view m s)) by lia.
      rewrite firstn_app, <- LV, firstn_all, Nat.sub_diag. simpl. rewrite app_nil_r.
      rewrite (firstn_all2 (view m s ++ d)) by (rewrite app_length; lia).
      rewrite <- app_assoc. f_equal. f_equal.
      rewrite skipn_app, (skipn_all2 (view m s)) by lia. simpl.
      replace (length (view m s) + length d - length (view m s))%nat with (length d) by lia.
      clear. generalize (length (view m s)) as n. intros n. revert n arr0.
      intros n. induction n; intros arr0; simpl; auto. destruct arr0; [destruct (length d); auto|auto].
    + split; [rewrite length_put; auto|]. exists k. split; [simpl; lia|]. split.
      * rewrite V1, array_put_other by auto. rewrite EQ. f_equal.
        rewrite firstn_app. replace (k - length (view m s))%nat with 0%nat by lia. simpl. rewrite app_nil_r. auto.
      * right. simpl. split; auto. lia.
  - apply Nat.leb_gt in C.
    split; [rewrite app_length; lia|]. exists k. split; [rewrite L1; lia|]. split.
    + rewrite V1, array_app_l by auto. rewrite EQ. f_equal.
      rewrite firstn_app. replace (k - length (view m s))%nat with 0%nat by lia. simpl. rewrite app_nil_r. auto.
    + right. cbn [sl_arr sl_len]. split; [lia|]. rewrite app_length, LV.
      destruct ALT as [[EA EK]|[NA LA]]; [|lia].
      subst a0 k. rewrite EQ in C.
      rewrite app_length, firstn_length, skipn_length in C. lia.
Qed.

Lemma loop_written : forall fuel w m s r out w' m' s' r' a0 arr0,
  fits m s -> share_loop act grow fuel [] w m s r = Some (out, w' : W, m', s', r') ->
  written m s a0 arr0 -> written m' s' a0 arr0.
Proof.
  induction fuel as [|f IH]; intros w m s r out w' m' s' r' a0 arr0 F E K; [discriminate|].
  cbn [share_loop] in E.
  destruct ((0 <? rd_max r) && (rd_max r <=? Z.of_nat (sl_len s)))%Z%bool.
  { inversion E; subst; auto. }
  destruct (scan act f r) as [[[[pref more]|e|] r1]|]; [| | |discriminate].
  - destruct (append_to grow m s pref) as [m1 s1] eqn:EA.
    destruct (append_fits _ _ _ _ _ F EA) as (F1 & V1 & L1).
    pose proof (written_append _ _ _ _ _ _ _ F EA K) as K1.
    destruct more.
    + eapply IH; eauto.
    + simpl in E. inversion E; subst; auto.
  - destruct (is_eof e && rd_zlib_on r1)%bool.
    + eapply IH; eauto.
    + destruct (append_to grow m s []) as [m1 s1] eqn:EA. inversion E; subst.
      eapply written_append; eauto.
  - inversion E; subst; auto.
Qed.
End Facts.
