(** Proofs about callbacks that write messages. *)
From Verif Require Import Base LineReader LineWriter SpecWriter WriterReentry MsgReentry SpecWriterReentry WriterReentryFacts SpecMsgReentry.

(** ** The buffer *)
Lemma b_set_length i a : forall h, length (b_set i a h) = length h.
Proof. induction i as [|i IH]; intros [|x t]; cbn [b_set length]; auto. Qed.
Lemma b_set_same : forall i a h, (i < length h)%nat -> nth i (b_set i a h) [] = a.
Proof. induction i as [|i IH]; intros a [|x t] L; cbn [b_set nth length] in *; try lia; auto. apply IH. lia. Qed.
Lemma b_set_other : forall i j a h, i <> j -> nth j (b_set i a h) [] = nth j h [].
Proof. induction i as [|i IH]; intros [|j] a [|x t] N; cbn [b_set nth]; auto; congruence. Qed.
Lemma b_over_end t p a : (length t + length p <= length a)%nat -> firstn (length t) a = t ->
  b_over (length t) p a = (t ++ p) ++ skipn (length (t ++ p)) a.
Proof. intros L E. unfold b_over. rewrite E, <- app_assoc, app_length. reflexivity. Qed.
Lemma removelast_snoc_length (t : bytes) c : t <> [] -> length (removelast t ++ [c]) = length t.
Proof. intros N. rewrite (app_removelast_last x00 N) at 2. now rewrite !app_length. Qed.
Lemma firstn_removelast (t : bytes) n : length t = S n -> firstn n t = removelast t.
Proof.
  intros L. assert (N : t <> []) by (destruct t; [discriminate|congruence]). rewrite (app_removelast_last x00 N) at 1.
  assert (E : length (removelast t) = n) by (rewrite (app_removelast_last x00 N), app_length in L; cbn in L; lia).
  rewrite firstn_app, <- E, Nat.sub_diag, firstn_all. cbn. apply app_nil_r.
Qed.

Section Buffer.
Variable room : nat -> nat -> nat.
(** The buffer holds [t], in the array [i] of the heap [h0] or in a newer one.  [u] is what was written to that array. *)
Definition holds (i : nat) (a0 : bytes) (n0 : nat) (b : mbuf) (t u : bytes) : Prop :=
  (n0 <= length (mb_heap b))%nat /\ (i < n0)%nat /\ (mb_at b < length (mb_heap b))%nat /\ mb_len b = length t /\ (length t <= length (b_array (mb_at b) b))%nat /\
  b_slice (mb_at b) (mb_len b) b = t /\ (length u <= length a0)%nat /\ b_array i b = u ++ skipn (length u) a0 /\
  (mb_at b = i /\ u = t \/ (n0 <= mb_at b)%nat).

Lemma skipn_length_app (u a : bytes) : (length u <= length a)%nat -> length (u ++ skipn (length u) a) = length a.
Proof. intros L. rewrite app_length, skipn_length. lia. Qed.

Lemma holds_grow n i a0 n0 b t u : holds i a0 n0 b t u -> holds i a0 n0 (b_grow room n b) t u /\
  (mb_at b = i -> (length t + n <= length a0)%nat -> mb_at (b_grow room n b) = i) /\
  (length t + n <= length (b_array (mb_at (b_grow room n b)) (b_grow room n b)))%nat.
Proof.
  intros (H1 & H2 & H3 & H4 & H5 & H6 & H7 & H8 & H9). unfold b_grow. cbv zeta. rewrite H4. destruct (Nat.leb_spec (length t + n) (length (b_array (mb_at b) b))) as [L|L].
  - split; [repeat split; auto|]. split; auto.
  - set (r := repeat x00 _). cbn [mb_at mb_heap mb_len].
    assert (A : nth (length (mb_heap b)) (mb_heap b ++ [firstn (length t) (b_array (mb_at b) b) ++ r]) [] = t ++ r).
    { rewrite app_nth2, Nat.sub_diag by lia. cbn [nth]. unfold b_slice in H6. rewrite H4 in H6. now rewrite H6. }
    assert (R : (length t + n <= length (t ++ r))%nat).
    { rewrite app_length. unfold r. rewrite repeat_length. unfold b_room. lia. }
    split; [|split].
    + unfold holds. cbn [mb_at mb_heap mb_len]. rewrite app_length. cbn [length]. split; [lia|]. split; [auto|]. split; [lia|]. split; [auto|].
      unfold b_slice, b_array in *. cbn [mb_at mb_heap mb_len]. rewrite A. split; [lia|]. split; [rewrite firstn_app, Nat.sub_diag, firstn_all; cbn; apply app_nil_r|].
      split; [auto|]. split; [rewrite app_nth1 by lia; exact H8|]. right. lia.
    + intros E K. exfalso. destruct H9 as [[_ ->]|H9]; [|lia]. rewrite E, H8, skipn_length_app in L by auto. lia.
    + unfold b_array in *. cbn [mb_at mb_heap] in *. rewrite A. exact R.
Qed.

Lemma grow_at n i a0 n0 b t u : holds i a0 n0 b t u ->
  (mb_at b = i -> if (length t + n <=? length a0)%nat then mb_at (b_grow room n b) = i else (n0 <= mb_at (b_grow room n b))%nat) /\
  ((n0 <= mb_at b)%nat -> (n0 <= mb_at (b_grow room n b))%nat).
Proof.
  intros (H1 & H2 & H3 & H4 & H5 & H6 & H7 & H8 & H9). unfold b_grow. cbv zeta. rewrite H4. split.
  - intros Ei. rewrite Ei, H8, skipn_length_app by exact H7. destruct (length t + n <=? length a0)%nat; [exact Ei|exact H1].
  - intros L. destruct (length t + n <=? _)%nat; [exact L|exact H1].
Qed.
Definition step_fits (c : nat) (o : bop) (t : bytes) : bool :=
  match o with BPut p => (length t + length p <=? c)%nat | BGrow k => (length t + k <=? c)%nat | BLast _ => true end.
Lemma do_at o i a0 n0 b t u b' : holds i a0 n0 b t u -> b_do room o b = Some b' ->
  (mb_at b = i -> if step_fits (length a0) o t then mb_at b' = i else (n0 <= mb_at b')%nat) /\ ((n0 <= mb_at b)%nat -> (n0 <= mb_at b')%nat).
Proof.
  intros H E. destruct o as [p|n|c]; cbn [b_do step_fits] in *.
  - cbv zeta in E. injection E as <-. cbn [mb_at]. apply (grow_at (length p) _ _ _ _ _ _ H).
  - injection E as <-. apply (grow_at n _ _ _ _ _ _ H).
  - destruct (mb_len b); [discriminate|]. injection E as <-. cbn [mb_at]. auto.
Qed.
Lemma holds_do o os i a0 n0 b t u : holds i a0 n0 b t u ->
  match built [o] t with
  | None => b_do room o b = None
  | Some t' => exists b' u', b_do room o b = Some b' /\ holds i a0 n0 b' t' u' /\ (u' = t' \/ u' = u /\ (n0 <= mb_at b')%nat) /\
                 (mb_at b = i -> (needed (o :: os) (length t) <= length a0)%nat -> mb_at b' = i /\ (needed os (length t') <= length a0)%nat) /\
                 ((n0 <= mb_at b')%nat -> u' = u)
  end.
Proof.
  assert (mono : forall os n, (n <= needed os n)%nat).
  { induction os0 as [|[p|k|c] os0 IH]; intros n; cbn [needed]; auto; [specialize (IH (n + length p)%nat); lia|specialize (IH n); lia]. }
  intros H. destruct o as [p|n|c]; cbn [built b_do].
  - cbv zeta. destruct (holds_grow (length p) _ _ _ _ _ _ H) as (G & K & R). set (b1 := b_grow room (length p) b) in *.
    destruct G as (H1 & H2 & H3 & H4 & H5 & H6 & H7 & H8 & H9).
    assert (E : b_over (mb_len b1) p (b_array (mb_at b1) b1) = (t ++ p) ++ skipn (length (t ++ p)) (b_array (mb_at b1) b1)).
    { rewrite H4. apply b_over_end; [exact R|]. unfold b_slice in H6. now rewrite H4 in H6. }
    set (a := b_over _ _ _) in *.
    assert (La : (length (t ++ p) <= length a)%nat) by (rewrite E, (app_length (t ++ p)); lia).
    assert (Fa : firstn (length (t ++ p)) a = t ++ p) by (rewrite E, firstn_app, Nat.sub_diag, firstn_all; cbn; apply app_nil_r).
    destruct (Nat.eq_dec (mb_at b1) i) as [Ei|Ni].
    + destruct H9 as [[_ Hu]|H9]; [|lia]. subst u. exists (mkMbuf (b_set (mb_at b1) a (mb_heap b1)) (mb_at b1) (mb_len b1 + length p)), (t ++ p). split; [reflexivity|].
      assert (Ra : (length (t ++ p) <= length a0)%nat).
      { rewrite app_length. rewrite Ei, H8, skipn_length_app in R by auto. exact R. }
      split; [|split; [now left|]].
      * unfold holds, b_slice, b_array. cbn [mb_heap mb_at mb_len]. rewrite b_set_length, b_set_same by auto. rewrite H4, <- app_length.
        repeat (split; auto). rewrite Ei. rewrite b_set_same by lia. rewrite E, Ei, H8. f_equal.
        rewrite app_length. replace (length t + length p)%nat with (length p + length t)%nat by lia.
        assert (SS : forall n m (l : bytes), skipn n (skipn m l) = skipn (n + m) l).
        { intros n m l. revert m n. induction l as [|y l IH]; intros m n; [now rewrite !skipn_nil|]. destruct m; cbn [skipn]; [now rewrite Nat.add_0_r|]. rewrite Nat.add_succ_r. cbn. apply IH. }
        rewrite <- !SS. f_equal. rewrite skipn_app, skipn_all, Nat.sub_diag. reflexivity.
      * split; [|cbn [mb_at]; lia]. intros _ Nd. cbn [mb_at]. split; [exact Ei|]. cbn [needed] in Nd. now rewrite app_length.
    + exists (mkMbuf (b_set (mb_at b1) a (mb_heap b1)) (mb_at b1) (mb_len b1 + length p)), u. split; [reflexivity|].
      destruct H9 as [[C _]|H9]; [congruence|]. split; [|split; [right; split; auto|]].
      * unfold holds, b_slice, b_array. cbn [mb_heap mb_at mb_len]. rewrite b_set_length, b_set_same by auto. rewrite b_set_other by auto. rewrite H4, <- app_length.
        repeat (split; auto).
      * split; [|reflexivity]. intros C Nd. cbn [mb_at]. exfalso. apply Ni, K; [exact C|]. cbn [needed] in Nd. specialize (mono os (length t + length p)%nat). lia.
  - destruct (holds_grow n _ _ _ _ _ _ H) as (G & K & R). exists (b_grow room n b), u. split; [reflexivity|]. split; [exact G|]. split.
    + destruct G as (H1 & H2 & H3 & H4 & H5 & H6 & H7 & H8 & [[_ ->]|H9]); [now left|right; auto].
    + split; [|reflexivity]. intros C Nd. cbn [needed] in Nd. split; [apply K; [exact C|lia]|lia].
  - destruct H as (H1 & H2 & H3 & H4 & H5 & H6 & H7 & H8 & H9). rewrite H4. destruct t as [|y t]; [reflexivity|]. cbn [length].
    remember (y :: t) as t0 eqn:Et. assert (N : t0 <> []) by (subst t0; discriminate). assert (Ln : length t0 = S (length t)) by now subst t0.
    set (n := length t) in *. clearbody n. clear Et y t. set (t' := removelast t0 ++ [c]).
    assert (Lt : length t' = S n) by (unfold t'; now rewrite removelast_snoc_length).
    set (a1 := b_array (mb_at b) b) in *. assert (Ft : firstn (S n) a1 = t0) by (unfold b_slice in H6; rewrite H4, Ln in H6; exact H6).
    assert (E : b_over n [c] a1 = t' ++ skipn (length t') a1).
    { unfold b_over. rewrite Lt. replace (firstn n a1) with (removelast t0).
      - unfold t'. rewrite <- app_assoc. cbn [length]. now rewrite Nat.add_1_r.
      - rewrite <- (firstn_removelast t0 n Ln). rewrite <- Ft. rewrite firstn_firstn. f_equal. lia. }
    set (a := b_over n [c] a1) in *.
    assert (Fa : firstn (S n) a = t') by (rewrite E, <- Lt, firstn_app, Nat.sub_diag, firstn_all; cbn [firstn]; apply app_nil_r).
    assert (La : (S n <= length a)%nat) by (rewrite E, app_length, Lt; lia).
    destruct (Nat.eq_dec (mb_at b) i) as [Ei|Ni].
    + destruct H9 as [[_ Hu]|H9]; [|lia]. subst u. exists (mkMbuf (b_set (mb_at b) a (mb_heap b)) (mb_at b) (mb_len b)), t'. split; [now rewrite H4, Ln|].
      split; [|split; [now left|]].
      * unfold holds, b_slice, b_array. cbn [mb_heap mb_at mb_len]. rewrite b_set_length, b_set_same by auto. rewrite H4, Ln, Lt, Ei.
        split; [exact H1|]. split; [exact H2|]. split; [lia|]. split; [reflexivity|]. split; [exact La|]. split; [exact Fa|]. split; [lia|]. split; [|left; auto].
        rewrite b_set_same by lia. rewrite E, Lt. f_equal. unfold a1. rewrite Ei, H8, Ln, skipn_app, Ln, Nat.sub_diag. rewrite (skipn_all2 t0) by lia. reflexivity.
      * split; [|cbn [mb_at]; lia]. intros _ Nd. cbn [mb_at]. split; [exact Ei|]. cbn [needed] in Nd. rewrite Lt. exact Nd.
    + exists (mkMbuf (b_set (mb_at b) a (mb_heap b)) (mb_at b) (mb_len b)), u. split; [now rewrite H4, Ln|].
      destruct H9 as [[C _]|H9]; [congruence|]. split; [|split; [right; split; auto|]].
      * unfold holds, b_slice, b_array. cbn [mb_heap mb_at mb_len]. rewrite b_set_length, b_set_same by auto. rewrite b_set_other by auto. rewrite H4, Ln, Lt.
        split; [exact H1|]. split; [exact H2|]. split; [exact H3|]. split; [reflexivity|]. split; [exact La|]. split; [exact Fa|]. split; [exact H7|]. split; [exact H8|]. now right.
      * split; [|reflexivity]. intros C. now rewrite C in Ni.
Qed.

Lemma built_cons o os t : built (o :: os) t = match built [o] t with Some t' => built os t' | None => None end.
Proof. destruct o as [p|n|c]; cbn [built]; auto. now destruct t. Qed.

Lemma within_cons c o os t t1 : built [o] t = Some t1 -> within c (o :: os) t = if step_fits c o t then within c os t1 else (t, false).
Proof. destruct o as [p|n|x]; cbn [built within step_fits]; intros E; try (now injection E as <-). destruct t; [discriminate|]. now injection E as <-. Qed.
Lemma within_all c : forall os t t', built os t = Some t' -> (needed os (length t) <= c)%nat -> within c os t = (t', true).
Proof.
  assert (mono : forall os n, (n <= needed os n)%nat).
  { induction os as [|[p|k|x] os IH]; intros n; cbn [needed]; auto; [specialize (IH (n + length p)%nat); lia|specialize (IH n); lia]. }
  induction os as [|[p|k|x] os IH]; intros t t' E L; cbn [built needed within] in *.
  - now injection E as <-.
  - specialize (mono os (length t + length p)%nat). replace (length t + length p <=? c)%nat with true by (symmetry; apply Nat.leb_le; lia). apply IH; [exact E|]. now rewrite app_length.
  - replace (length t + k <=? c)%nat with true by (symmetry; apply Nat.leb_le; lia). apply IH; [exact E|lia].
  - destruct t as [|y t]; [discriminate|]. apply IH; [exact E|]. rewrite removelast_snoc_length by discriminate. exact L.
Qed.

(** After all operations: the contents, and what has been written to the old array. *)
Lemma holds_all i a0 n0 : forall os b t u, holds i a0 n0 b t u ->
  match built os t with
  | None => b_all room os b = None
  | Some t' => exists b' u', b_all room os b = Some b' /\ holds i a0 n0 b' t' u' /\
      (mb_at b = i -> u' = fst (within (length a0) os t) /\ if snd (within (length a0) os t) then mb_at b' = i else (n0 <= mb_at b')%nat) /\
      ((n0 <= mb_at b)%nat -> u' = u /\ (n0 <= mb_at b')%nat)
  end.
Proof.
  induction os as [|o os IH]; intros b t u H.
  - cbn [built b_all]. exists b, u. split; [reflexivity|]. split; [exact H|]. split; [|auto]. intros C. cbn [within fst snd]. split; [|exact C].
    destruct H as (_ & H2 & _ & _ & _ & _ & _ & _ & [[_ ->]|H9]); [reflexivity|lia].
  - rewrite (built_cons o os). pose proof (holds_do o os i a0 n0 b t u H) as D. cbn [b_all]. destruct (built [o] t) as [t1|] eqn:E1; [|now rewrite D].
    destruct D as (b1 & u1 & D1 & D2 & _ & _ & D4). destruct (do_at o _ _ _ _ _ _ _ H D1) as [F1 F2]. rewrite D1. specialize (IH b1 t1 u1 D2). destruct (built os t1) as [t'|] eqn:E2; [|exact IH].
    destruct IH as (b' & u' & A1 & A2 & A3 & A4). exists b', u'. split; [exact A1|]. split; [exact A2|]. split.
    + intros C. specialize (F1 C). rewrite (within_cons _ _ os _ _ E1). destruct (step_fits (length a0) o t); [auto|]. cbn [fst snd]. destruct (A4 F1) as [-> A5]. split; [|exact A5].
      rewrite (D4 F1). destruct H as (_ & H2 & _ & _ & _ & _ & _ & _ & [[_ ->]|H9]); [reflexivity|lia].
    + intros C. specialize (F2 C). destruct (A4 F2) as [-> A5]. split; [auto|exact A5].
Qed.

Lemma holds_start i b : good_buf b -> (i <= mb_at b)%nat -> holds i (b_array i b) (S i) (b_reset b) [] [].
Proof.
  intros [H1 H2] L. unfold holds. cbn [b_reset mb_heap mb_at mb_len length]. split; [lia|]. split; [lia|]. split; [lia|]. split; [reflexivity|]. split; [lia|].
  split; [reflexivity|]. split; [lia|]. split; [reflexivity|]. destruct (Nat.eq_dec (mb_at b) i) as [E|N]; [left; auto|right; lia].
Qed.
Lemma overwritten_slice i b (line u a : bytes) : b_slice i (length line) b = line -> b_array i b = a -> firstn (length line) (u ++ skipn (length u) a) = overwritten line u.
Proof.
  intros Hl <-. unfold overwritten, b_slice in *. rewrite !firstn_app. f_equal. rewrite <- Hl at 3. rewrite skipn_firstn_comm, firstn_firstn. now rewrite Nat.min_id.
Qed.
(** Encoding a message into the buffer, and what becomes of a line in the memory of the buffer. *)
Theorem encoded os b : good_buf b ->
  match built os [] with
  | None => b_all room os (b_reset b) = None
  | Some t => exists b', b_all room os (b_reset b) = Some b' /\ good_buf b' /\ b_slice (mb_at b') (mb_len b') b' = t /\ mb_len b' = length t /\
      forall i line, (i <= mb_at b)%nat -> b_slice i (length line) b = line -> (length line <= length (b_array i b))%nat ->
        exists u, b_slice i (length line) b' = overwritten line u /\ length (b_array i b') = length (b_array i b) /\
          (mb_at b = i -> u = fst (within (length (b_array i b)) os []) /\
             if snd (within (length (b_array i b)) os []) then mb_at b' = i else (i < mb_at b')%nat) /\
          ((i < mb_at b)%nat -> u = [] /\ (i < mb_at b')%nat)
  end.
Proof.
  intros G. pose proof (holds_all _ _ _ os _ _ _ (holds_start (mb_at b) b G (le_n _))) as A. destruct (built os []) as [t|] eqn:E; [|exact A].
  destruct A as (b' & u0 & A1 & A2 & _ & _). exists b'. split; [exact A1|]. pose proof A2 as (H1 & H2 & H3 & H4 & H5 & H6 & _).
  split; [split; [exact H3|rewrite H4; exact H5]|]. split; [exact H6|]. split; [exact H4|].
  intros i line Hi Hl Ll. clear - G E A1 Hi Hl Ll. pose proof (holds_all _ _ _ os _ _ _ (holds_start i b G Hi)) as A. rewrite E in A.
  destruct A as (b1 & u & B1 & B2 & B3 & B4). rewrite A1 in B1. injection B1 as <-. pose proof B2 as (H1 & H2 & H3 & H4 & H5 & H6 & H7 & H8 & H9).
  exists u. split; [unfold b_slice at 1; rewrite H8; now apply (overwritten_slice i b)|]. split; [rewrite H8; now apply skipn_length_app|].
  cbn [b_reset mb_at] in B3, B4. split; [exact B3|exact B4].
Qed.
(** Its own array keeps its room if it has enough, and has enough in any case. *)
Lemma encoded_room os b b' t : good_buf b -> built os [] = Some t -> b_all room os (b_reset b) = Some b' ->
  ((needed os 0 <= length (b_array (mb_at b) b))%nat -> length (b_array (mb_at b') b') = length (b_array (mb_at b) b)).
Proof.
  intros G E A L. pose proof (encoded os b G) as B0. rewrite E in B0. destruct B0 as (b1 & B1 & B2 & B3 & B4 & B5). rewrite A in B1. injection B1 as <-.
  destruct (B5 (mb_at b) [] (le_n _) eq_refl ltac:(cbn; lia)) as (u & C1 & C2 & C3 & _). destruct (C3 eq_refl) as [_ C4].
  rewrite (within_all _ _ _ _ E) in C4 by exact L. cbn [snd] in C4. now rewrite C4.
Qed.
End Buffer.

Section Facts.
Context {M dst : Type} (dstep : dst -> dop -> dst * list bytes) (room : nat -> nat -> nat) (enc : M -> list bop * option error) (early : bool).
Notation wr := (writer unit dst).

(** ** Callbacks that write nothing *)
Section Calm.
Context {W : Type}.
Notation mw := (@mwriter W M dst).
Notation go := (m_do dstep room enc early).
Definition all_calm (x : mw) : Prop := forall h w d, In h (mw_lhooks x) -> calm (h w d).
Definition same_frame (x x' : mw) : Prop := mw_buf x' = mw_buf x /\ mw_lhooks x' = mw_lhooks x /\ mw_mhooks x' = mw_mhooks x.
Lemma same_refl x : same_frame x x. Proof. now repeat split. Qed.
Lemma same_trans x y z : same_frame x y -> same_frame y z -> same_frame x z.
Proof. intros (A1&A2&A3) (B1&B2&B3). repeat split; congruence. Qed.
Lemma same_calm x y : same_frame x y -> all_calm x -> all_calm y.
Proof. intros (_&E&_) H h w d I. rewrite E in I. now apply H. Qed.
Lemma same_bytes s x y : same_frame x y -> bytes_of s y = bytes_of s x.
Proof. intros (E&_). destruct s; cbn [bytes_of]; [reflexivity|now rewrite E]. Qed.

Section Run.
Variable again : W -> @task M -> mw -> option (wout (option error * W * mw)).
Hypothesis Ha : forall w d x e w' x', all_calm x -> again w (TLine (Own d)) x = Some (WRet (e, w', x')) -> same_frame x x'.
Lemma run_calm : forall p, calm p -> forall x w v x', all_calm x -> run_mprog dstep again p x = Some (WRet (w, v, x')) -> same_frame x x'.
Proof.
  intros p C. induction C as [w0 v0| |w0 d k _ IH|k _ IH|k _ IH]; intros x w v x' A H; cbn [run_mprog] in H.
  - injection H as <- <- <-. apply same_refl.
  - discriminate.
  - destruct (again w0 (TLine (Own d)) x) as [[[[e w'] x1]| |]|] eqn:E; try discriminate. pose proof (Ha _ _ _ _ _ _ A E) as S1.
    eapply same_trans; [exact S1|]. eapply IH; [|exact H]. eapply same_calm; eauto.
  - destruct (flush dstep (mw_line x)) as [[e l]| |]; try discriminate. eapply same_trans; [|eapply IH; [|exact H]]; [now repeat split|]. exact A.
  - eapply IH; eauto.
Qed.
Lemma run_all_calm (s : src) : forall hs, (forall h w d, In h hs -> calm (h w d)) -> forall x w w' v x', all_calm x ->
  run_mprogs dstep again (bytes_of s) hs w x = Some (WRet (w', v, x')) -> same_frame x x'.
Proof.
  induction hs as [|h hs IH]; intros Hc x w w' v x' A H; cbn [run_mprogs] in H; [injection H as <- <- <-; apply same_refl|].
  destruct (run_mprog dstep again (h w (bytes_of s x)) x) as [[[[w1 v1] x1]| |]|] eqn:E; try discriminate.
  assert (S1 : same_frame x x1) by (eapply run_calm; [apply Hc; now left| |exact E]; exact A).
  destruct v1; try (injection H as <- <- <-; exact S1). eapply same_trans; [exact S1|]. eapply IH; [|eapply same_calm; eauto|exact H]. intros h' w2 d I. apply Hc. now right.
Qed.
(** The callbacks cannot tell a line in the buffer from one of the program. *)
Lemma run_own (s : src) d : forall hs, (forall h w d, In h hs -> calm (h w d)) -> forall x w, all_calm x -> bytes_of s x = d ->
  run_mprogs dstep again (bytes_of s) hs w x = run_mprogs dstep again (bytes_of (Own d)) hs w x.
Proof.
  induction hs as [|h hs IH]; intros Hc x w A E; cbn [run_mprogs]; [reflexivity|]. cbn [bytes_of]. rewrite E.
  destruct (run_mprog dstep again (h w d) x) as [[[[w1 v1] x1]| |]|] eqn:E1; try reflexivity. destruct v1; try reflexivity.
  assert (S1 : same_frame x x1) by (eapply run_calm; [apply Hc; now left| |exact E1]; exact A).
  apply IH; [intros h' w2 d' I; apply Hc; now right|eapply same_calm; eauto|]. now rewrite (same_bytes s _ _ S1).
Qed.
End Run.
Lemma line_calm : forall f w s x e w' x', all_calm x -> go f w (TLine s) x = Some (WRet (e, w', x')) -> same_frame x x'.
Proof.
  induction f as [|f IH]; intros w s x e w' x' A H; cbn [m_do] in H; [discriminate|]. destruct (wr_err (mw_line x)); [injection H as <- <- <-; apply same_refl|].
  destruct (run_mprogs dstep (go f) (bytes_of s) (mw_lhooks x) w x) as [[[[w1 v] x1]| |]|] eqn:E; try discriminate.
  assert (S1 : same_frame x x1) by (eapply (run_all_calm (go f)); [intros; eapply IH; eauto|exact A|exact A|exact E]).
  destruct v.
  - destruct (put_line dstep (bytes_of s x1) (mw_line x1)) as [[e1 l]| |]; try discriminate. injection H as <- <- <-. exact S1.
  - injection H as <- <- <-. exact S1.
  - injection H as <- <- <-. exact S1.
Qed.
Theorem line_own f w s (x : mw) : all_calm x -> go f w (TLine s) x = go f w (TLine (Own (bytes_of s x))) x.
Proof.
  intros A. destruct f as [|f]; [reflexivity|]. cbn [m_do]. destruct (wr_err (mw_line x)); [reflexivity|].
  assert (Ha : forall w0 d x0 e w' x', all_calm x0 -> go f w0 (TLine (Own d)) x0 = Some (WRet (e, w', x')) -> same_frame x0 x') by (intros; eapply line_calm; eauto).
  rewrite (run_own (go f) Ha s (bytes_of s x) (mw_lhooks x) A x w A eq_refl).
  destruct (run_mprogs dstep (go f) (bytes_of (Own (bytes_of s x))) (mw_lhooks x) w x) as [[[[w1 v] x1]| |]|] eqn:E; try reflexivity.
  assert (S1 : same_frame x x1) by (eapply (run_all_calm (go f)); [exact Ha|exact A|exact A|exact E]).
  destruct v; try reflexivity. rewrite (same_bytes s _ _ S1). reflexivity.
Qed.
Theorem message_calm f w m t (x : mw) : all_calm x -> good_buf (mw_buf x) -> mw_mhooks x = [] -> (early = true -> wr_err (mw_line x) = None) ->
  built (fst (enc m)) [] = Some t -> snd (enc m) = None ->
  exists b', good_buf b' /\ go (S f) w (TMsg m) x = go f w (TLine (Own t)) (mw_mem b' x).
Proof.
  intros A G Hm He Eb Ee. pose proof (encoded room (fst (enc m)) (mw_buf x) G) as B0. rewrite Eb in B0. destruct B0 as (b' & B1 & B2 & B3 & _).
  exists b'. split; [exact B2|]. cbn [m_do]. assert (X : (if early then wr_err (mw_line x) else None) = None) by (destruct early; auto).
  rewrite X, Hm. cbn [run_mprogs]. rewrite B1, Ee. rewrite line_own by exact A. cbn [bytes_of mw_mem mw_buf]. now rewrite B3.
Qed.

(** The line writer of C146. *)
Section Line.
Variables (dinit : BinInt.Z -> dst) (lh : list (W -> bytes -> mprog W M)) (mh : list (W -> M -> mprog W M)) (b : mbuf).
Hypothesis Hc : forall h w d, In h lh -> calm (h w d).
Notation H := (map line_hook lh).
Notation X l := (mkMwriter l lh mh b).
Definition agree {A} (m : option (wout (A * mw))) (r : option (wout (A * @lwriter W dst))) : Prop :=
  m = match r with Some (WRet (a, s)) => Some (WRet (a, X (lw_rest s))) | Some WPan => Some WPan | _ => None end /\
  forall a s, r = Some (WRet (a, s)) -> lw_hooks s = H.
Section Again.
Variables (ga : W -> @task M -> mw -> option (wout (option error * W * mw))) (ra : W -> bytes -> @lwriter W dst -> option (wout (option error * W * @lwriter W dst))).
Hypothesis G : forall w d l, agree (ga w (TLine (Own d)) (X l)) (ra w d (mkLwriter H l)).
Lemma calls_agree : forall p, calm p -> forall l, agree (run_mprog dstep ga p (X l)) (run_wprog dinit dstep ra (line_calls p) (mkLwriter H l)).
Proof.
  intros p C. induction C as [w v| |w d k _ IH|k _ IH|k _ IH]; intros l; cbn [run_mprog line_calls run_wprog].
  - split; [reflexivity|]. intros a s E. injection E as <- <-. reflexivity.
  - split; [reflexivity|discriminate].
  - destruct (G w d l) as [G1 G2]. rewrite G1. destruct (ra w d (mkLwriter H l)) as [[[[e w'] s']| |]|]; try (split; [reflexivity|discriminate]).
    specialize (G2 _ _ eq_refl). destruct s' as [hs l']. cbn [lw_hooks lw_rest] in *. subst hs. apply IH.
  - cbn [mw_line lw_rest]. unfold w_after. destruct (flush dstep l) as [[e l']| |]; try (split; [reflexivity|discriminate]). apply IH.
  - apply IH.
Qed.
Lemma hooks_agree d : forall hs, (forall h w d, In h hs -> calm (h w d)) -> forall w l,
  agree (run_mprogs dstep ga (bytes_of (Own d)) hs w (X l)) (run_wprogs dinit dstep ra (map line_hook hs) w d (mkLwriter H l)).
Proof.
  induction hs as [|h hs IH]; intros Hs w l; cbn [run_mprogs map run_wprogs bytes_of]; [split; [reflexivity|]; intros a s E; injection E as <- <-; reflexivity|].
  destruct (calls_agree (h w d) (Hs h w d (or_introl eq_refl)) l) as [C1 C2]. rewrite C1. change (line_hook h w d) with (line_calls (h w d)).
  destruct (run_wprog dinit dstep ra (line_calls (h w d)) (mkLwriter H l)) as [[[[w' v] s']| |]|]; try (split; [reflexivity|discriminate]).
  specialize (C2 _ _ eq_refl). destruct s' as [hs' l']. cbn [lw_hooks lw_rest] in *. subst hs'.
  destruct v; try (split; [reflexivity|]; intros a s E; injection E as <- <-; reflexivity). apply IH. intros h' w2 d2 I. apply Hs. now right.
Qed.
End Again.
Theorem line_agree : forall f w d l, agree (go f w (TLine (Own d)) (X l)) (re_write dinit dstep f w d (mkLwriter H l)).
Proof.
  induction f as [|f IH]; intros w d l; cbn [m_do re_write]; [split; [reflexivity|discriminate]|]. cbn [mw_line lw_rest mw_lhooks lw_hooks].
  destruct (wr_err l); [split; [reflexivity|]; intros a s E; injection E as <- <-; reflexivity|].
  destruct (hooks_agree (m_do dstep room enc early f) (re_write dinit dstep f) IH d lh Hc w l) as [C1 C2]. rewrite C1.
  destruct (run_wprogs dinit dstep (re_write dinit dstep f) H w d (mkLwriter H l)) as [[[[w' v] s']| |]|]; try (split; [reflexivity|discriminate]).
  specialize (C2 _ _ eq_refl). destruct s' as [hs' l']. cbn [lw_hooks lw_rest] in *. subst hs'. destruct v as [| |e].
  - cbn [bytes_of mw_line lw_rest]. unfold w_after. destruct (put_line dstep d l') as [[e l2]| |]; (split; [reflexivity|]); try discriminate. intros a s E. injection E as <- <-. reflexivity.
  - split; [reflexivity|]. intros a s E. injection E as <- <-. reflexivity.
  - split; [reflexivity|]. intros a s E. injection E as <- <-. reflexivity.
Qed.
End Line.
End Calm.

(** ** Callbacks that write messages *)
Notation mw := (@mwriter bool M dst).
Notation go := (m_do dstep room enc early).
(** While it writes, the callback passes everything. *)
Definition silent (w : bool) (lh : list (bool -> bytes -> mprog bool M)) (mh : list (bool -> M -> mprog bool M)) : Prop :=
  (forall again s (x : mw), run_mprogs dstep again (bytes_of s) lh w x = Some (WRet (w, HPass, x))) /\
  (forall again m (x : mw), run_mprogs dstep again (fun _ : mw => m) mh w x = Some (WRet (w, HPass, x))).
Lemma line_silent f w s (x : mw) : sound (mw_line x) -> (forall again s (y : mw), run_mprogs dstep again (bytes_of s) (mw_lhooks x) w y = Some (WRet (w, HPass, y))) ->
  go (S f) w (TLine s) x =
    match write_line dstep tt (bytes_of s x) (mw_line x) with WRet (e, _, l) => Some (WRet (e, w, mw_with l x)) | WPan => Some WPan | WStuck => None end.
Proof.
  intros H Q. cbn [m_do]. destruct (wr_err (mw_line x)) as [e|] eqn:E.
  - unfold write_line. rewrite E. destruct x; reflexivity.
  - rewrite Q, (put_line_line dstep _ _ H E). now destruct (put_line dstep _ _) as [[e l]| |].
Qed.

Lemma message_silent f w m (x : mw) : sound (mw_line x) -> wr_err (mw_line x) = None -> good_buf (mw_buf x) -> silent w (mw_lhooks x) (mw_mhooks x) ->
  match built (fst (enc m)) [] with
  | None => go (S (S f)) w (TMsg m) x = Some WPan
  | Some t => exists b', b_all room (fst (enc m)) (b_reset (mw_buf x)) = Some b' /\
      go (S (S f)) w (TMsg m) x =
        match snd (enc m) with
        | Some e => Some (WRet (Some e, w, mw_mem b' x))
        | None => match write_line dstep tt t (mw_line x) with
                  | WRet (e, _, l) => Some (WRet (e, w, mw_with l (mw_mem b' x)))
                  | WPan => Some WPan
                  | WStuck => None
                  end
        end
  end.
Proof.
  intros H E G [Q1 Q2]. pose proof (encoded room (fst (enc m)) (mw_buf x) G) as B0. remember (S f) as f1 eqn:Ef. cbn [m_do].
  assert (X : (if early then wr_err (mw_line x) else None) = None) by (destruct early; auto). rewrite X, Q2.
  destruct (built (fst (enc m)) []) as [t|]; [|now rewrite B0]. destruct B0 as (b' & B1 & B2 & B3 & _). exists b'. split; [exact B1|]. rewrite B1.
  destruct (snd (enc m)) as [e|]; [reflexivity|]. subst f1. rewrite line_silent; [|exact H|exact Q1]. cbn [bytes_of mw_mem mw_buf mw_line]. now rewrite B3.
Qed.

(** A line in the memory of the buffer while messages are written. *)
Definition inside (i : nat) (line : bytes) (b : mbuf) : Prop := (i <= mb_at b)%nat /\ b_slice i (length line) b = line /\ (length line <= length (b_array i b))%nat.
Lemma overwritten_length line u : length (overwritten line u) = length line.
Proof. unfold overwritten. rewrite firstn_length, app_length, skipn_length. lia. Qed.
Lemma overwritten_nothing line : overwritten line [] = line.
Proof. unfold overwritten. cbn [length skipn app]. apply firstn_all. Qed.

Lemma encoded_inside m i line b b' : good_buf b -> inside i line b -> b_all room (fst (enc m)) (b_reset b) = Some b' ->
  good_buf b' /\ exists u, inside i (overwritten line u) b' /\ length (b_array i b') = length (b_array i b) /\
    (mb_at b = i -> u = fst (within (length (b_array i b)) (fst (enc m)) []) /\
       if snd (within (length (b_array i b)) (fst (enc m)) []) then mb_at b' = i else (i < mb_at b')%nat) /\
    ((i < mb_at b)%nat -> u = [] /\ (i < mb_at b')%nat).
Proof.
  intros G (I1 & I2 & I3) E. pose proof (encoded room (fst (enc m)) b G) as B0. destruct (built (fst (enc m)) []) as [t|]; [|congruence].
  destruct B0 as (b1 & B1 & B2 & _ & _ & B3). rewrite E in B1. injection B1 as <-. split; [exact B2|].
  destruct (B3 i line I1 I2 I3) as (u & C1 & C2 & C3 & C4). exists u. split; [|auto]. unfold inside. rewrite overwritten_length, C2. split; [|auto].
  destruct (Nat.eq_dec (mb_at b) i) as [N|N].
  - destruct (C3 N) as [_ C5]. destruct (snd _); lia.
  - destruct C4; lia.
Qed.

Lemma writes_first_run f v lh mh : silent true lh mh -> forall ms l b i line, sound l -> wr_err l = None -> good_buf b -> inside i line b ->
  match messages_until dstep enc ms l with
  | WRet (None, l') => exists b' line', good_buf b' /\ inside i line' b' /\ length line' = length line /\
      (mb_at b = i -> line' = smear enc (length (b_array i b)) ms line) /\ ((i < mb_at b)%nat -> line' = line) /\
      run_mprog dstep (go (S (S f))) (writes_first ms v) (mkMwriter l lh mh b) = Some (WRet (false, v, mkMwriter l' lh mh b'))
  | WRet (Some e, l') => exists b', good_buf b' /\
      run_mprog dstep (go (S (S f))) (writes_first ms v) (mkMwriter l lh mh b) = Some (WRet (false, HErr e, mkMwriter l' lh mh b'))
  | WPan => run_mprog dstep (go (S (S f))) (writes_first ms v) (mkMwriter l lh mh b) = Some WPan
  | WStuck => run_mprog dstep (go (S (S f))) (writes_first ms v) (mkMwriter l lh mh b) = None
  end.
Proof.
  intros Q. induction ms as [|m ms IH]; intros l b i line H E G I.
  - cbn [messages_until]. exists b, line. split; [exact G|]. split; [exact I|]. split; [reflexivity|]. split; [reflexivity|]. split; reflexivity.
  - cbn [messages_until writes_first]. remember (S (S f)) as f2 eqn:Ef. cbn [run_mprog]. subst f2.
    pose proof (message_silent f true m (mkMwriter l lh mh b) H E G Q) as P. cbn [mw_line mw_buf] in P.
    destruct (built (fst (enc m)) []) as [t|] eqn:Eb; [|now rewrite P].
    destruct P as (b1 & P1 & P2). destruct (encoded_inside m i line b b1 G I P1) as (G1 & u & C3 & C4 & C5 & C6).
    rewrite P2. clear P2. destruct (snd (enc m)) as [e|]; [exists b1; split; [exact G1|reflexivity]|].
    pose proof (line_sound dstep t l H) as L1. pose proof (fun u y => line_fine dstep t l u y H E) as L2.
    destruct (write_line dstep tt t l) as [[[[e|] u0] l1]| |]; try reflexivity; [exists b1; split; [exact G1|reflexivity]|].
    specialize (IH l1 b1 i (overwritten line u) L1 (L2 _ _ eq_refl) G1 C3). unfold mw_with, mw_mem. cbn [mw_lhooks mw_mhooks mw_buf mw_line].
    destruct (messages_until dstep enc ms l1) as [[[e|] l']| |]; [exact IH| |exact IH|exact IH].
    destruct IH as (b' & line' & D1 & D2 & D3 & D4 & D5 & D6). exists b', line'. split; [exact D1|]. split; [exact D2|]. split; [now rewrite D3, overwritten_length|]. split; [|split; [|exact D6]].
    + intros Ci. cbn [smear]. destruct (C5 Ci) as [C7 C8]. destruct (within (length (b_array i b)) (fst (enc m)) []) as [u1 [|]]; cbn [fst snd] in *; subst u1.
      * rewrite D4 by exact C8. now rewrite C4.
      * now apply D5.
    + intros Ci. destruct (C6 Ci) as [-> C8]. rewrite D5 by exact C8. apply overwritten_nothing.
Qed.

Lemma messages_app : forall a b l, messages_until dstep enc (a ++ b) l =
  match messages_until dstep enc a l with WRet (None, l') => messages_until dstep enc b l' | r => r end.
Proof.
  induction a as [|m a IH]; intros b l; cbn [app messages_until]; [reflexivity|]. destruct (built (fst (enc m)) []); [|reflexivity]. destruct (snd (enc m)); [reflexivity|].
  destruct (write_line dstep tt _ l) as [[[[e|] u] l']| |]; auto.
Qed.
Lemma messages_state : forall ms l, sound l -> wr_err l = None -> match messages_until dstep enc ms l with WRet (None, l') => sound l' /\ wr_err l' = None | _ => True end.
Proof.
  induction ms as [|m ms IH]; intros l H E; cbn [messages_until]; [auto|]. destruct (built (fst (enc m)) []) as [t|]; [|exact Logic.I]. destruct (snd (enc m)); [exact Logic.I|].
  pose proof (line_sound dstep t l H) as L1. pose proof (fun u y => line_fine dstep t l u y H E) as L2.
  destruct (write_line dstep tt t l) as [[[[e|] u] l']| |]; auto. apply IH; [exact L1|]. eapply L2. reflexivity.
Qed.
Lemma silent_message pre v : silent true [] [first pre v]. Proof. split; reflexivity. Qed.
Lemma silent_line pre v : silent true [first pre v] []. Proof. split; reflexivity. Qed.
Lemma inside_nothing b : inside 0 [] b.
Proof. split; [lia|]. split; [reflexivity|cbn; lia]. Qed.

(** A message callback. *)
Theorem message_callback f pre v m l b : sound l -> wr_err l = None -> good_buf b ->
  match messages_until dstep enc (match v m with HPass => pre m ++ [m] | _ => pre m end) l with
  | WRet (e, l') => exists b', good_buf b' /\ go (S (S (S f))) false (TMsg m) (mkMwriter l [] [first pre v] b) =
      Some (WRet (match e, v m with None, HErr e' => Some e' | _, _ => e end, false, mkMwriter l' [] [first pre v] b'))
  | WPan => go (S (S (S f))) false (TMsg m) (mkMwriter l [] [first pre v] b) = Some WPan
  | WStuck => go (S (S (S f))) false (TMsg m) (mkMwriter l [] [first pre v] b) = None
  end.
Proof.
  intros H E G. remember (S (S f)) as f2 eqn:Ef. cbn [m_do]. subst f2. cbn [mw_line mw_mhooks].
  assert (X : (if early then wr_err l else None) = None) by (destruct early; auto). rewrite X. clear X.
  cbn [run_mprogs]. change (first pre v false m) with (writes_first (pre m) (v m)).
  pose proof (writes_first_run f (v m) [] [first pre v] (silent_message pre v) (pre m) l b 0%nat [] H E G (inside_nothing b)) as R.
  pose proof (messages_state (pre m) l H E) as T0.
  assert (Z : messages_until dstep enc (match v m with HPass => pre m ++ [m] | _ => pre m end) l =
    match messages_until dstep enc (pre m) l with WRet (None, l') => match v m with HPass => messages_until dstep enc [m] l' | _ => WRet (None, l') end | r => r end).
  { destruct (v m); [apply messages_app| |]; destruct (messages_until dstep enc (pre m) l) as [[[e1|] l1]| |]; reflexivity. }
  rewrite Z. clear Z. destruct (messages_until dstep enc (pre m) l) as [[[e|] l']| |].
  - destruct R as (b' & G' & R). rewrite R. exists b'. split; [exact G'|reflexivity].
  - destruct R as (b' & line' & G' & _ & _ & _ & _ & R). rewrite R. destruct T0 as [H' E']. destruct (v m) as [| |e].
    + cbn [mw_buf]. pose proof (encoded room (fst (enc m)) b' G') as B0. cbn [messages_until].
      destruct (built (fst (enc m)) []) as [t|]; [|now rewrite B0]. destruct B0 as (b2 & B1 & B2 & B3 & _). rewrite B1.
      destruct (snd (enc m)) as [e|]; [exists b2; split; [exact B2|reflexivity]|]. rewrite line_silent; [|exact H'|intros; reflexivity].
      cbn [bytes_of mw_mem mw_buf mw_line]. rewrite B3. destruct (write_line dstep tt t l') as [[[[e|] u] l2]| |]; try reflexivity; exists b2; (split; [exact B2|reflexivity]).
    + exists b'. split; [exact G'|reflexivity].
    + exists b'. split; [exact G'|reflexivity].
  - now rewrite R.
  - now rewrite R.
Qed.

(** A line callback. *)
Theorem line_callback f pre v m t l b : sound l -> wr_err l = None -> good_buf b -> built (fst (enc m)) [] = Some t -> snd (enc m) = None ->
  match messages_until dstep enc (pre t) l with
  | WRet (Some e, l') => exists b', good_buf b' /\ go (S (S (S (S f)))) false (TMsg m) (mkMwriter l [first pre v] [] b) =
      Some (WRet (Some e, false, mkMwriter (set_error e l') [first pre v] [] b'))
  | WRet (None, l') => exists b' c, good_buf b' /\ (length t <= c)%nat /\ ((needed (fst (enc m)) 0 <= length (b_array (mb_at b) b))%nat -> c = length (b_array (mb_at b) b)) /\
      go (S (S (S (S f)))) false (TMsg m) (mkMwriter l [first pre v] [] b) =
        match v t with
        | HPass => match write_line dstep tt (smear enc c (pre t) t) l' with
                   | WRet (e, _, l2) => Some (WRet (e, false, mkMwriter l2 [first pre v] [] b'))
                   | WPan => Some WPan
                   | WStuck => None
                   end
        | HDrop => Some (WRet (None, false, mkMwriter l' [first pre v] [] b'))
        | HErr e => Some (WRet (Some e, false, mkMwriter (set_error e l') [first pre v] [] b'))
        end
  | WPan => go (S (S (S (S f)))) false (TMsg m) (mkMwriter l [first pre v] [] b) = Some WPan
  | WStuck => go (S (S (S (S f)))) false (TMsg m) (mkMwriter l [first pre v] [] b) = None
  end.
Proof.
  intros H E G Eb Ee. pose proof (encoded room (fst (enc m)) b G) as B0. rewrite Eb in B0. destruct B0 as (b1 & B1 & B2 & B3 & B4 & _).
  remember (S (S (S f))) as f3 eqn:Ef. cbn [m_do]. cbn [mw_line mw_mhooks mw_buf].
  assert (X : (if early then wr_err l else None) = None) by (destruct early; auto). rewrite X. clear X. cbn [run_mprogs mw_buf]. rewrite B1, Ee. subst f3.
  remember (S (S f)) as f2 eqn:Ef. cbn [m_do]. subst f2. unfold mw_mem. cbn [mw_line mw_lhooks mw_mhooks]. rewrite E. cbn [run_mprogs bytes_of mw_buf]. rewrite B3.
  change (first pre v false t) with (writes_first (pre t) (v t)).
  assert (I : inside (mb_at b1) t b1) by (split; [lia|]; rewrite <- B4; split; [exact B3|apply B2]).
  pose proof (writes_first_run f (v t) [first pre v] [] (silent_line pre v) (pre t) l b1 (mb_at b1) t H E B2 I) as R.
  pose proof (messages_state (pre t) l H E) as T0.
  destruct (messages_until dstep enc (pre t) l) as [[[e|] l']| |]; [| |now rewrite R|now rewrite R].
  - destruct R as (b' & G' & R). rewrite R. exists b'. split; [exact G'|reflexivity].
  - destruct R as (b' & line & G' & (I1 & I2 & I3) & Ln & F & _ & R). rewrite R. exists b', (length (b_array (mb_at b1) b1)). split; [exact G'|].
    split; [rewrite <- B4; apply B2|]. split; [apply (encoded_room room _ _ _ _ G Eb B1)|].
    rewrite <- (F eq_refl). destruct (v t) as [| |e]; try reflexivity. cbn [mw_buf mw_line bytes_of].
    rewrite B4, <- Ln, I2. destruct T0 as [H' E']. rewrite (put_line_line dstep line l' H' E'). now destruct (put_line dstep line l') as [[e l2]| |].
Qed.

(** Messages that need no more room than there is. *)
Theorem smear_all c : forall ms ts line, Forall2 (fun m t => built (fst (enc m)) [] = Some t /\ (needed (fst (enc m)) 0 <= c)%nat) ms ts ->
  smear enc c ms line = fold_left overwritten ts line.
Proof.
  intros ms ts line F. revert line. induction F as [|m t ms ts [F1 F2] F IH]; intros line; [reflexivity|]. cbn [smear fold_left]. rewrite (within_all _ _ _ _ F1) by exact F2. apply IH.
Qed.
(** One that asks for more before it writes. *)
Theorem smear_none c m k os ms line : fst (enc m) = BGrow k :: os \/ (exists p, fst (enc m) = BPut p :: os /\ length p = k) -> (c < k)%nat -> smear enc c (m :: ms) line = line.
Proof.
  intros F L. cbn [smear]. assert (X : within c (fst (enc m)) [] = ([], false)).
  { destruct F as [->|(p & -> & <-)]; cbn [within length Nat.add]; [replace (k <=? c)%nat with false|replace (length p <=? c)%nat with false]; try reflexivity; symmetry; apply Nat.leb_gt; lia. }
  rewrite X. apply overwritten_nothing.
Qed.

(** A message callback that writes a message for every message. *)
Theorem message_recursion {W} (g : W -> M -> M) k l lh mh b : wr_err l = None -> forall f w m,
  go f w (TMsg m) (mkMwriter l lh ((fun w m => MMsg w (g w m) (k w m)) :: mh) b) = None.
Proof.
  intros E. induction f as [|f IH]; intros w m; [reflexivity|]. cbn [m_do mw_line mw_mhooks].
  assert (X : (if early then wr_err l else None) = None) by (destruct early; auto). rewrite X. cbn [run_mprogs run_mprog]. now rewrite IH.
Qed.
End Facts.

(** ** The encoders of the packages *)
Lemma built_puts os : forall ps t, built (map BPut ps ++ os) t = built os (t ++ concat ps).
Proof. induction ps as [|p ps IH]; intros t; cbn [map app built concat]; [now rewrite app_nil_r|]. now rewrite IH, app_assoc. Qed.
Lemma nmdc_built typ ps : built (nmdc_ops typ ps) [] =
  match concat ps with
  | [] => match typ with [] => None | _ => Some (B "$" ++ typ ++ B "|") end
  | p => Some (match typ with [] => [] | _ => B "$" ++ typ ++ B " " end ++ p ++ B "|")
  end.
Proof.
  unfold nmdc_ops. destruct typ as [|c typ].
  - cbn [app]. rewrite built_puts. destruct (concat ps) as [|x q]; reflexivity.
  - cbn [app built]. rewrite built_puts. destruct (concat ps) as [|x q]; cbn [built].
    + rewrite app_nil_r. assert (X : removelast (("$"%byte :: c :: typ) ++ [" "%byte]) = "$"%byte :: c :: typ) by apply removelast_last.
      cbn in *. injection X as X. now rewrite X.
    + cbn. now rewrite <- !app_assoc.
Qed.
Lemma adc_built b ps : b <> [] -> built (adc_ops b ps) [] = Some (match concat ps with [] => removelast b ++ [x0a] | p => b ++ p ++ [x0a] end).
Proof.
  intros N. unfold adc_ops. cbn [built app]. rewrite built_puts. destruct (concat ps) as [|x q]; cbn [built].
  - rewrite app_nil_r. destruct b; [congruence|reflexivity].
  - now rewrite <- app_assoc.
Qed.
