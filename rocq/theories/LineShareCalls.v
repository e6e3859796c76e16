(** Facts about calls of readers that share their line buffer (LineShare.v, AdcShare.v). *)
From Verif Require Import Base BaseFacts LineReader LineShare SpecShare LineShareFacts.
From Verif Require Import NmdcText NmdcMessage NmdcReader SpecReader AdcMessage AdcPacket AdcShare.

Section Calls.
Context {W zstate : Type} (act : zstate -> zaction zstate) (zinit : zstate) (grow : nat -> nat -> nat).
Notation sreader := (sreader (W:=W) (zstate:=zstate)).

Lemma buffer_fits : forall m (R : sreader) cap, buffer m R cap -> fits m (sr_line R) /\ length (array m (sl_arr (sr_line R))) = cap.
Proof.
  intros m R cap (O & L & b & Hb & Hc).
  assert (A : (sl_arr (sr_line R) < length m)%nat) by (apply nth_error_Some; congruence).
  rewrite nth_error_array in Hb by auto. inversion Hb; subst b. split; auto.
  repeat split; auto. lia.
Qed.
Lemma fits_buffer : forall m (R : sreader), fits m (sr_line R) -> buffer m R (length (array m (sl_arr (sr_line R)))).
Proof.
  intros m R (A & O & L). repeat split; auto. exists (array m (sl_arr (sr_line R))). split; auto.
  apply nth_error_array. auto.
Qed.
Lemma cut_fits : forall m s, fits m s -> fits m (mkSlice (sl_arr s) (sl_off s) 0).
Proof. intros m s (A & O & L). repeat split; simpl; auto. lia. Qed.

(** A hook of values for hooks that write. *)
Fixpoint as_hook (hs : list (whook W)) (p : W * bytes) : (W * bytes) * hook_res :=
  match hs with
  | [] => (p, HPass)
  | h :: t => match h (fst p) (snd p) with
              | ((w', n), HPass) => as_hook t (w', over n (snd p))
              | ((w', n), r) => ((w', over n (snd p)), r)
              end
  end.
Lemma as_hook_stands : forall hs, stands_for hs (fun p l => as_hook hs (fst p, l)).
Proof.
  intros hs w x l w' l' r H. cbn [fst]. induction H; cbn [as_hook fst snd]; auto.
  - rewrite H. auto.
  - rewrite H. destruct r; auto. congruence.
Qed.

Lemma read_agrees : forall h (R : sreader), stands_for (sr_hooks R) h -> forall m cap fuel w x, buffer m R cap ->
  match share_read_line act grow fuel w m R, read_line act fuel (w, x) (rehook [h] (sr_rd R)) with
  | None, None => True
  | Some (so, w1, m1, R1), Some (lo, (w2, x2), P1) =>
      w1 = w2 /\ P1 = rehook [h] (sr_rd R1) /\ sr_hooks R1 = sr_hooks R /\ fits m1 (sr_line R1) /\
      frame m (sl_arr (sr_line R)) m1 (sl_arr (sr_line R1)) /\
      shows m1 so (left_by_hooks x2 lo) /\ (forall s, so = SLine s -> s = sr_line R1)
  | _, _ => False
  end.
Proof.
  intros h R ST m cap fuel w x Bf. destruct (buffer_fits _ _ _ Bf) as (F & _).
  unfold share_read_line, read_line. cbn [rd_open rehook].
  destruct (rd_open (sr_rd R)).
  - pose proof (loop_agrees act grow (sr_hooks R) h ST fuel w x m
      (mkSlice (sl_arr (sr_line R)) (sl_off (sr_line R)) 0) (sr_rd R) [] (cut_fits _ _ F)
      ltac:(rewrite (view_fits _ _ (cut_fits _ _ F)); reflexivity)) as G.
    unfold agree in G. cbn [sl_arr] in G.
    match goal with |- context [read_loop act fuel (w, x) [] ?q] =>
      change q with (rehook [h] (sr_rd R)) end.
    destruct (share_loop act grow fuel (sr_hooks R) w m (mkSlice (sl_arr (sr_line R)) (sl_off (sr_line R)) 0) (sr_rd R))
      as [[[[[so w1] m1] s1] r1]|];
      destruct (read_loop act fuel (w, x) [] (rehook [h] (sr_rd R))) as [[[lo [w2 x2]] r2]|]; auto.
    destruct G as (G1 & G2 & G3 & G4 & G5). cbn [sr_rd sr_line sr_hooks].
    split; [exact G1|]. split; [exact G2|]. split; [reflexivity|]. split; [exact G3|]. split; [exact G4|].
    destruct so as [s|[s|] e|]; destruct lo as [l|[p|] e'|]; try contradiction; cbn [left_by_hooks shows].
    + destruct G5 as (-> & V). split; [|congruence]. rewrite <- V. apply holds_view, fits_within, G3.
    + destruct G5 as (-> & V & ->). split; [|congruence]. split; auto. rewrite <- V. apply holds_view, fits_within, G3.
    + split; [auto|congruence].
    + split; [exact G5|congruence].
  - simpl. split; auto. split; auto. split; auto. split; auto. split; [apply frame_refl|]. split; [reflexivity|congruence].
Qed.

(** Hooks that only watch. *)
Lemma over_same : forall l, over l l = l.
Proof. intros. unfold over. rewrite firstn_all, skipn_all. apply app_nil_r. Qed.
Lemma as_hook_watching : forall hs w l, as_hook (map watching hs) (w, l) = let (w', r) := run_hooks hs w l in ((w', l), r).
Proof.
  induction hs as [|h t IH]; intros w l; cbn [map as_hook run_hooks fst snd]; auto.
  unfold watching at 1. destruct (h w l) as [w1 r]. rewrite over_same. destruct r; auto.
Qed.
Lemma loop_watching : forall hs fuel w x line (r : reader unit zstate),
  match read_loop act fuel (w, x) line (rehook [fun p l => as_hook (map watching hs) (fst p, l)] r), read_loop act fuel w line (rehook hs r) with
  | None, None => True
  | Some (lo, (w1, x1), r1), Some (lo', w2, r2) => w1 = w2 /\ same_but_hooks r1 r2 /\ rd_hooks r2 = hs /\ left_by_hooks x1 lo = lo'
  | _, _ => False
  end.
Proof.
  intros hs. induction fuel as [|f IH]; intros w x line r; [exact Logic.I|].
  cbn [read_loop]. rewrite !scan_rehook.
  change (rd_max (rehook hs r)) with (rd_max r).
  change (rd_max (rehook [fun p l => as_hook (map watching hs) (fst p, l)] r)) with (rd_max r).
  destruct ((0 <? rd_max r) && (rd_max r <=? Z.of_nat (length line)))%Z%bool.
  { repeat split. }
  destruct (scan act f r) as [[[[pref more]|e|] r1]|]; auto.
  - destruct more; [apply IH|].
    cbn [rd_hooks rehook run_hooks fst]. rewrite as_hook_watching.
    destruct (run_hooks hs w (line ++ pref)) as [w1 []].
    + repeat split.
    + apply IH.
    + repeat split.
  - cbn [rd_zlib_on rehook]. destruct (is_eof e && rd_zlib_on r1)%bool; [apply (IH w x line (with_mode false false r1))|repeat split].
  - repeat split.
Qed.
Lemma read_watching : forall hs fuel w x (r : reader unit zstate),
  match read_line act fuel (w, x) (rehook [fun p l => as_hook (map watching hs) (fst p, l)] r), read_line act fuel w (rehook hs r) with
  | None, None => True
  | Some (lo, (w1, x1), r1), Some (lo', w2, r2) => w1 = w2 /\ same_but_hooks r1 r2 /\ rd_hooks r2 = hs /\ left_by_hooks x1 lo = lo'
  | _, _ => False
  end.
Proof.
  intros. unfold read_line. cbn [rd_open rehook]. destruct (rd_open r).
  - apply loop_watching.
  - repeat split.
Qed.

(** ** Other arrays stay *)
Lemma read_frame : forall m (R : sreader) fuel w o w1 m1 R1, fits m (sr_line R) -> share_read_line act grow fuel w m R = Some (o, w1, m1, R1) ->
  fits m1 (sr_line R1) /\ frame m (sl_arr (sr_line R)) m1 (sl_arr (sr_line R1)).
Proof.
  intros m R fuel w o w1 m1 R1 F E.
  pose proof (read_agrees _ R (as_hook_stands (sr_hooks R)) m _ fuel w [] (fits_buffer _ _ F)) as G.
  rewrite E in G. destruct (read_line act fuel (w, []) _) as [[[lo [w2 x2]] P1]|]; [|contradiction]. tauto.
Qed.
Lemma call_frame : forall fuel o w m (R : sreader) w1 m1 R1, fits m (sr_line R) -> share_call act zinit grow fuel o w m R = Some (w1, m1, R1) ->
  fits m1 (sr_line R1) /\ frame m (sl_arr (sr_line R)) m1 (sl_arr (sr_line R1)) /\ (o <> OpLine -> m1 = m).
Proof.
  intros fuel o w m R w1 m1 R1 F E.
  assert (Same : forall r h, Some (w, m, mkSreader r (sr_line R) h) = Some (w1, m1, R1) ->
    fits m1 (sr_line R1) /\ frame m (sl_arr (sr_line R)) m1 (sl_arr (sr_line R1)) /\ (o <> OpLine -> m1 = m)).
  { intros r h H. inversion H; subst. split; auto. split; [apply frame_refl|auto]. }
  destruct o; cbn [share_call] in E; eauto.
  - destruct (share_read_line act grow fuel w m R) as [[[[o w2] m2] R2]|] eqn:G; inversion E; subst.
    destruct (read_frame _ _ _ _ _ _ _ _ F G). split; auto. split; auto. congruence.
  - destruct (reader_read act fuel n (sr_rd R)) as [[o r]|]; [eauto|discriminate].
  - destruct (enable_zlib act zinit fuel (sr_rd R)) as [[o r]|]; [eauto|discriminate].
  - destruct (binary_read act fuel n rest (sr_rd R)) as [[[o r'] r]|]; [eauto|discriminate].
Qed.
Lemma calls_frame : forall fuel os w m (R : sreader) w1 m1 R1, fits m (sr_line R) -> share_calls act zinit grow fuel os w m R = Some (w1, m1, R1) ->
  fits m1 (sr_line R1) /\ frame m (sl_arr (sr_line R)) m1 (sl_arr (sr_line R1)) /\ (~ In OpLine os -> m1 = m).
Proof.
  intros fuel. induction os as [|o os IH]; intros w m R w1 m1 R1 F E; cbn [share_calls] in E.
  - inversion E; subst. split; auto. split; [apply frame_refl|auto].
  - destruct (share_call act zinit grow fuel o w m R) as [[[w2 m2] R2]|] eqn:G; [|discriminate].
    destruct (call_frame _ _ _ _ _ _ _ _ F G) as (F2 & R2' & N2).
    destruct (IH _ _ _ _ _ _ F2 E) as (F3 & R3 & N3).
    split; auto. split; [eapply frame_trans; eauto; apply F|].
    intros N. rewrite N3 by (intros X; apply N; right; auto). apply N2. intros ->. apply N. left. auto.
Qed.
Lemma holds_frame : forall m a m' a' k l, frame m a m' a' -> sl_arr k <> a -> holds m k l -> holds m' k l.
Proof.
  intros m a m' a' k l (L & K & _) N (Len & b & Hb & Q). split; auto. exists b. split; auto.
  assert (A : (sl_arr k < length m)%nat) by (apply nth_error_Some; congruence).
  rewrite nth_error_array in Hb by auto. inversion Hb; subst b.
  rewrite nth_error_array by lia. rewrite K; auto.
Qed.

(** ** The next line, without hooks *)
Lemma next_line : forall m (R : sreader) cap fuel w out w1 m1 R1 k was, buffer m R cap -> sr_hooks R = [] ->
  rd_open (sr_rd R) = true -> share_read_line act grow fuel w m R = Some (out, w1, m1, R1) ->
  sl_arr k = sl_arr (sr_line R) -> holds m k was ->
  exists l n now, holds m1 (sr_line R1) l /\ (n <= length l)%nat /\ ((length l <= cap)%nat -> n = length l) /\
    holds m1 k now /\ overwritten n (sl_off k) l was now.
Proof.
  intros m R cap fuel w out w1 m1 R1 k was Bf NH OP E KA KH.
  destruct (buffer_fits _ _ _ Bf) as (F & LC).
  destruct (read_frame _ _ _ _ _ _ _ _ F E) as (F1 & FR).
  unfold share_read_line in E. rewrite OP, NH in E.
  set (s0 := mkSlice (sl_arr (sr_line R)) (sl_off (sr_line R)) 0) in *.
  destruct (share_loop act grow fuel [] w m s0 (sr_rd R)) as [[[[[o w2] m2] s2] r2]|] eqn:SL; [|discriminate].
  inversion E; subst o w2 m2 R1; clear E. cbn [sr_line] in *.
  assert (F0 : fits m s0) by apply (cut_fits _ _ F).
  assert (W0 : written m s0 (sl_arr (sr_line R)) (array m (sl_arr (sr_line R)))).
  { split; [apply F|]. exists 0%nat. split; [lia|]. split; [reflexivity|]. left. auto. }
  pose proof (loop_written act grow _ _ _ _ _ _ _ _ _ _ _ _ F0 SL W0) as (A1 & n & Hn & EQ & ALT).
  pose proof (length_view _ _ F1) as LV.
  set (A := array m (sl_arr (sr_line R))) in *.
  set (A' := array m1 (sl_arr (sr_line R))) in *.
  exists (view m1 s2), n, (view m1 k).
  split; [apply holds_view, fits_within, F1|]. split; [lia|]. split; [intros Hl; destruct ALT; lia|].
  assert (LA : length A' = length A) by apply FR.
  assert (Len : length was = sl_len k) by apply KH.
  destruct (Nat.eq_dec (sl_len k) 0) as [Z|NZ].
  - split.
    + split. { unfold view. rewrite Z. reflexivity. }
      exists A'. rewrite KA. split; [apply nth_error_array; auto|]. intros i Hi. lia.
    + split. { unfold view. rewrite Z, Len, Z. reflexivity. } intros i Hi. lia.
  - pose proof (holds_within _ _ _ KH ltac:(lia)) as (KB & KL). rewrite KA in KL. fold A in KL.
    assert (KW : within m1 k). { split; rewrite KA; auto. fold A'. lia. }
    split; [apply holds_view; auto|].
    split. { unfold view. rewrite KA. fold A'. rewrite firstn_length, skipn_length. lia. }
    intros i Hi. unfold view at 1. rewrite KA. fold A'.
    rewrite nth_error_firstn_lt, nth_error_skipn by lia. rewrite EQ.
    destruct KH as (_ & b & Hb & Q). rewrite KA in Hb. rewrite nth_error_array in Hb by apply F. inversion Hb; subst b.
    assert (LF : length (firstn n (view m1 s2)) = n) by (rewrite firstn_length; lia).
    destruct (Nat.ltb_spec (sl_off k + i) n) as [LT|GE].
    + rewrite nth_error_app1 by lia. apply nth_error_firstn_lt. auto.
    + rewrite nth_error_app2 by lia. rewrite LF, nth_error_skipn, <- Q by lia.
      f_equal. lia.
Qed.

(** ** Slices of a line *)
Lemma view_sub : forall m s off len, within m s -> (off + len <= sl_len s)%nat ->
  view m (mkSlice (sl_arr s) (sl_off s + off) len) = firstn len (skipn off (view m s)) /\
  within m (mkSlice (sl_arr s) (sl_off s + off) len).
Proof.
  intros m s off len (A & L) H. split.
  - unfold view. cbn [sl_arr sl_off sl_len]. rewrite skipn_firstn_comm, firstn_firstn, Nat.min_l by lia.
    f_equal. generalize (array m (sl_arr s)) as l. generalize (sl_off s) as n. clear.
    induction n; intros l; simpl; auto. destruct l; auto. rewrite skipn_nil. auto.
  - split; simpl; auto. lia.
Qed.
Lemma sub_holds : forall m s l pre d suf, within m s -> holds m s l -> l = pre ++ d ++ suf ->
  holds m (mkSlice (sl_arr s) (sl_off s + length pre) (length d)) d.
Proof.
  intros m s l pre d suf IN H E. pose proof (holds_is_view _ _ _ H) as V. destruct H as (L & _).
  rewrite E, !app_length in L.
  destruct (view_sub m s (length pre) (length d) IN ltac:(lia)) as (V1 & W1).
  pose proof (holds_view _ _ W1) as H1. rewrite V1, <- V, E in H1.
  rewrite skipn_app, skipn_all, Nat.sub_diag in H1. simpl in H1.
  rewrite firstn_app, firstn_all, Nat.sub_diag in H1. simpl in H1. rewrite app_nil_r in H1. auto.
Qed.
Lemma empty_holds : forall m s, within m s -> holds m (mkSlice (sl_arr s) (sl_off s) 0) [].
Proof.
  intros m s (A & L). split; auto. exists (array m (sl_arr s)). split; [apply nth_error_array; auto|].
  simpl. lia.
Qed.

Lemma received_holds : forall limit m s l t a, holds m s l -> line_for limit l t a -> holds m (received_slice s l) a.
Proof.
  intros limit m s l t a H (body & cmd & E & _ & P & _).
  assert (IN : within m s).
  { eapply holds_within; eauto. destruct H as (L & _). rewrite <- L, E, app_length. simpl. lia. }
  unfold received_slice. rewrite E. change (B "|") with ["|"%byte]. rewrite removelast_last.
  destruct P as [b N D|t0 N|t0 a0 N].
  - destruct b as [|c r]; [congruence|].
    destruct (beq_spec c "$"%byte) as [->|NE]; [exfalso; eapply D; reflexivity|].
    rewrite <- (Nat.add_0_r (sl_off s)). eapply (sub_holds m s l [] (c :: r)); eauto.
  - change (beq "$" "$") with true. cbv iota. rewrite (proj2 (index_byte_none _ _)) by auto. apply empty_holds, IN.
  - change (beq "$" "$") with true. cbv iota. rewrite (proj2 (index_byte_some _ _ (length t0))) by (exists t0, a0; auto).
    replace (length (t0 ++ " "%byte :: a0) - S (length t0))%nat with (length a0) by (rewrite app_length; simpl; lia).
    replace (sl_off s + 2 + length t0)%nat with (sl_off s + length ("$"%byte :: t0 ++ B " "))%nat
      by (simpl; rewrite app_length; simpl; lia).
    eapply (sub_holds m s l _ a0); eauto. rewrite E. simpl. rewrite <- !app_assoc. reflexivity.
Qed.

End Calls.
