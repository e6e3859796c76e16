(** Lemmas about the line writer model. *)
From Verif Require Import Base BaseFacts LineReader SpecLine LineReaderStream LineReaderOps LineWriter SpecWriter.

Lemma delivered_app a b : delivered (a ++ b) = delivered a ++ delivered b.
Proof. apply flat_map_app. Qed.

Section Facts.
Context {W dst : Type} (dinit : Z -> dst) (dstep : dst -> dop -> dst * list bytes).
Notation writer := (writer W dst).
Implicit Types w : writer.
Implicit Types c : conn.

Definition dlv w : bytes := delivered (cn_trace (wr_conn w)).
Definition hon w : Prop := Forall honest (cn_script (wr_conn w)).

(** Everything except the connection, the zlib writer and the buffer. *)
Definition frame w w' : Prop :=
  wr_timeout w' = wr_timeout w /\ wr_hooks w' = wr_hooks w /\ wr_open w' = wr_open w /\
  wr_zcur w' = wr_zcur w /\ wr_size w' = wr_size w /\ wr_zlib_on w' = wr_zlib_on w /\ wr_lvl w' = wr_lvl w /\
  wr_err w' = wr_err w /\ (hon w -> hon w').

Lemma frame_refl w : frame w w.
Proof. repeat split; auto. Qed.
Lemma frame_trans a b d : frame a b -> frame b d -> frame a d.
Proof.
  intros (A1&A2&A3&A4&A5&A6&A7&A8&A9) (B1&B2&B3&B4&B5&B6&B7&B8&B9).
  repeat split; try congruence. auto.
Qed.

(** ** The connection *)
Lemma conn_write_ok p c n e c' : conn_write p c = (n, e, c') ->
  n <= length p /\ delivered (cn_trace c') = delivered (cn_trace c) ++ firstn n p /\
  (Forall honest (cn_script c) -> Forall honest (cn_script c') /\ (e = None -> n = length p)) /\
  length (cn_script c') = length (cn_script c) - 1 /\
  (cn_script c = [] -> n = length p /\ e = None) /\
  cn_trace c' = cn_trace c ++ [EvWrite p n e].
Proof.
  unfold conn_write. destruct (cn_script c) as [|[k e0] t]; intros [= <- <- <-]; cbn [cn_trace cn_script].
  - rewrite delivered_app. cbn. rewrite app_nil_r. repeat split; auto.
  - assert (Hk : match k with Some k0 => Nat.min k0 (length p) | None => length p end <= length p) by (destruct k; lia).
    rewrite delivered_app. cbn. rewrite app_nil_r. repeat split; auto; try (now inversion H); try lia; try discriminate.
    inversion H as [|? ? H1 H2]; subst. intros ->. now rewrite (H1 eq_refl).
Qed.

Lemma conn_writes_ok : forall ps c e c', conn_writes ps c = (e, c') ->
  (Forall honest (cn_script c) -> Forall honest (cn_script c') /\
     (e = None -> delivered (cn_trace c') = delivered (cn_trace c) ++ concat ps)) /\
  length (cn_script c') <= length (cn_script c) /\
  exists evs, cn_trace c' = cn_trace c ++ evs /\ Forall (fun ev => exists p n e, ev = EvWrite p n e) evs.
Proof.
  induction ps as [|p ps IH]; intros c e c'; cbn [conn_writes concat].
  - intros [= <- <-]. rewrite app_nil_r. split; [auto|]. split; [lia|]. exists []. rewrite app_nil_r. auto.
  - destruct (conn_write p c) as [[n [e1|]] c1] eqn:E; apply conn_write_ok in E; destruct E as (H1 & H2 & H3 & H4 & H5 & H6).
    + intros [= <- <-]. split; [intros Hh; split; [now apply H3|discriminate]|]. split; [lia|].
      exists [EvWrite p n (Some e1)]. split; [exact H6|]. repeat constructor. eauto.
    + intros H. apply IH in H. destruct H as (K1 & K2 & evs & K3 & K4). split.
      * intros Hh. destruct (H3 Hh) as [Hh1 Hn]. destruct (K1 Hh1) as [Hh2 K]. split; [exact Hh2|].
        intros He. rewrite (K He), H2, (Hn eq_refl), firstn_all, app_assoc. reflexivity.
      * split; [lia|]. exists (EvWrite p n None :: evs). rewrite K3, H6, <- app_assoc. split; [reflexivity|].
        constructor; [eauto|exact K4].
Qed.

(** ** What was handed to the current writer *)
Inductive sofar (base : bytes) (lvl : Z) w : bytes -> Prop :=
| sf_plain x : wr_zcur w = false -> dlv w = base ++ x -> sofar base lvl w x
| sf_zlib ops : wr_zcur w = true -> ~ In DClose ops -> hon w ->
    wr_zw w = Some (fst (deflate dstep (dinit lvl) ops), None) ->
    dlv w = base ++ snd (deflate dstep (dinit lvl) ops) -> sofar base lvl w (written ops).

Lemma deflate_app : forall a d b,
  deflate dstep d (a ++ b) =
  (fst (deflate dstep (fst (deflate dstep d a)) b), snd (deflate dstep d a) ++ snd (deflate dstep (fst (deflate dstep d a)) b)).
Proof.
  induction a as [|o a IH]; intros d b; cbn [deflate app].
  - cbn. destruct (deflate dstep d b). reflexivity.
  - destruct (dstep d o) as [d1 ps]. rewrite IH. destruct (deflate dstep d1 a) as [d2 out]. cbn.
    now rewrite app_assoc.
Qed.

Lemma deflate_one d o : deflate dstep d [o] = (fst (dstep d o), concat (snd (dstep d o))).
Proof. cbn. destruct (dstep d o). cbn. now rewrite app_nil_r. Qed.

Lemma written_app a b : written (a ++ b) = written a ++ written b.
Proof. apply flat_map_app. Qed.

(** One operation of the zlib writer that succeeds. *)
Lemma zlib_do_ok base lvl w o x w' : sofar base lvl w x -> wr_zcur w = true ->
  zlib_do dstep o w = WRet (None, w') ->
  exists ops, x = written ops /\ ~ In DClose ops /\ hon w' /\ frame w w' /\ wr_buf w' = wr_buf w /\ wr_berr w' = wr_berr w /\
    wr_treplies w' = wr_treplies w /\
    wr_zw w' = Some (fst (deflate dstep (dinit lvl) (ops ++ [o])), None) /\
    dlv w' = base ++ snd (deflate dstep (dinit lvl) (ops ++ [o])).
Proof.
  intros Hs Hz. destruct Hs as [x Hz'|ops _ Hc Hh Hw Hd]; [congruence|].
  unfold zlib_do. rewrite Hw. unfold zw_do. cbn [snd fst].
  destruct (dstep (fst (deflate dstep (dinit lvl) ops)) o) as [d' ps] eqn:Ed.
  destruct (conn_writes ps (wr_conn w)) as [e c'] eqn:Ec. intros [= -> <-].
  apply conn_writes_ok in Ec. destruct Ec as (H1 & H2 & _). destruct (H1 Hh) as [Hh' H3]. specialize (H3 eq_refl).
  exists ops. split; [reflexivity|]. split; [exact Hc|]. split; [exact Hh'|].
  split; [repeat split; auto|]. split; [reflexivity|]. split; [reflexivity|]. split; [reflexivity|].
  rewrite deflate_app, deflate_one, Ed. cbn [fst snd with_io wr_zw]. split; [reflexivity|].
  unfold dlv in *. cbn [with_io wr_conn]. rewrite H3, Hd, app_assoc. reflexivity.
Qed.

Lemma cur_write_frame p w n e w' : cur_write dstep p w = WRet (n, e, w') ->
  frame w w' /\ wr_buf w' = wr_buf w /\ wr_berr w' = wr_berr w /\ wr_treplies w' = wr_treplies w /\ n <= length p.
Proof.
  unfold cur_write. destruct (wr_zcur w) eqn:Hz.
  - unfold zlib_do. destruct (wr_zw w) as [z|]; [|discriminate]. unfold zw_do.
    destruct (snd z) as [e0|].
    + intros [= <- <- <-]. repeat split; auto; lia.
    + destruct (dstep (fst z) (DWrite p)) as [d' ps]. destruct (conn_writes ps (wr_conn w)) as [[e1|] c'] eqn:Ec;
        intros [= <- <- <-]; apply conn_writes_ok in Ec; destruct Ec as (H1 & H2 & _); repeat split; cbn; auto; try lia;
        unfold hon; cbn; intros Hh; now apply H1.
  - destruct (conn_write p (wr_conn w)) as [[n0 e0] c'] eqn:Ec. intros [= <- <- <-].
    apply conn_write_ok in Ec. destruct Ec as (H1 & H2 & H3 & H4 & H5 & _).
    repeat split; cbn; auto. unfold hon. cbn. intros Hh. now apply H3.
Qed.

Lemma cur_write_ok base lvl p w x n e w' : sofar base lvl w x -> cur_write dstep p w = WRet (n, e, w') ->
  (e = None \/ wr_zcur w = false) ->
  sofar base lvl w' (x ++ firstn n p) /\ (hon w -> e = None -> n = length p).
Proof.
  intros Hs Hw He. pose proof (cur_write_frame _ _ _ _ _ Hw) as ((_&_&_&Fz&_) & _).
  unfold cur_write in Hw. destruct (wr_zcur w) eqn:Hz.
  - destruct He as [->|?]; [|congruence].
    destruct (zlib_do dstep (DWrite p) w) as [[[e0|] w0]| |] eqn:Ez; try discriminate.
    injection Hw as <- <-. rewrite firstn_all.
    destruct (zlib_do_ok base lvl w (DWrite p) x w0 Hs Hz Ez) as (ops & -> & K1 & K2 & K3 & _ & _ & _ & K4 & K5).
    replace (written ops ++ p) with (written (ops ++ [DWrite p])) by (rewrite written_app; cbn; now rewrite app_nil_r).
    split; [|auto]. apply sf_zlib; auto. rewrite in_app_iff. cbn. intuition discriminate.
  - destruct (conn_write p (wr_conn w)) as [[n0 e0] c'] eqn:Ec. injection Hw as <- <- <-.
    apply conn_write_ok in Ec. destruct Ec as (H1 & H2 & H3 & H4 & H5 & _).
    destruct Hs as [x _ Hd|ops Hz']; [|congruence].
    split; [|intros Hh; now apply H3]. apply sf_plain; [exact Fz|].
    unfold dlv in *. cbn [with_io wr_conn]. rewrite H2, Hd, app_assoc. reflexivity.
Qed.

Lemma sofar_buf base lvl w x b e : sofar base lvl w x -> sofar base lvl (with_buf b e w) x.
Proof. intros [y H1 H2|ops H1 H2 H3 H4 H5]; [now apply sf_plain|now apply sf_zlib]. Qed.

Lemma bw_flush_frame w e w' : bw_flush dstep w = WRet (e, w') -> frame w w' /\ wr_treplies w' = wr_treplies w /\
  wr_berr w' = e /\ (e = None -> wr_buf w' = []).
Proof.
  unfold bw_flush. destruct (wr_berr w) as [e0|] eqn:Eb; [intros [= <- <-]; repeat split; auto; discriminate|].
  destruct (wr_buf w) as [|b0 b] eqn:E; [intros [= <- <-]; repeat split; auto|].
  destruct (cur_write dstep (b0 :: b) w) as [[[n e1] w1]| |] eqn:Ec; try discriminate.
  apply cur_write_frame in Ec. destruct Ec as (F & _ & _ & Ft & _).
  set (e' := match e1 with Some _ => e1 | None => if (n <? length (b0 :: b))%nat then Some err_short_write else None end).
  destruct e' as [e2|]; intros [= <- <-]; cbn; (split; [exact F|]); auto. split; [exact Ft|]. split; [reflexivity|discriminate].
Qed.

(** Flush of the buffered writer. *)
Lemma bw_flush_ok base lvl w x e w' : sofar base lvl w x -> bw_flush dstep w = WRet (e, w') ->
  (e = None \/ wr_zcur w = false) ->
  exists x', sofar base lvl w' x' /\ x' ++ wr_buf w' = x ++ wr_buf w.
Proof.
  intros Hs Hf He. unfold bw_flush in Hf. destruct (wr_berr w) as [e0|]; [injection Hf as <- <-; eauto|].
  destruct (wr_buf w) as [|b0 b] eqn:E; [injection Hf as <- <-; rewrite E; eauto|].
  remember (b0 :: b) as q.
  destruct (cur_write dstep q w) as [[[n e1] w1]| |] eqn:Ec; try discriminate.
  pose proof (cur_write_frame _ _ _ _ _ Ec) as (_ & _ & _ & _ & Hn).
  set (e' := match e1 with Some _ => e1 | None => if (n <? length q)%nat then Some err_short_write else None end) in *.
  assert (He1 : e1 = None \/ wr_zcur w = false).
  { destruct He as [->|He]; [|now right]. left. unfold e' in Hf. destruct e1; [discriminate|reflexivity]. }
  destruct (cur_write_ok base lvl q w x n e1 w1 Hs Ec He1) as [Hs1 _].
  destruct e' as [e2|] eqn:Ee; injection Hf as <- <-.
  - exists (x ++ firstn n q). split; [now apply sofar_buf|]. cbn. now rewrite <- app_assoc, firstn_skipn.
  - exists (x ++ firstn n q). split; [now apply sofar_buf|]. cbn. rewrite app_nil_r.
    unfold e' in Ee. destruct e1; [discriminate|]. destruct (Nat.ltb_spec n (length q)); [discriminate|].
    rewrite firstn_all2 by lia. reflexivity.
Qed.

Lemma bw_loop_frame : forall f p w e w', bw_loop dstep f p w = WRet (e, w') ->
  frame w w' /\ wr_treplies w' = wr_treplies w /\ wr_berr w' = e.
Proof.
  induction f as [|f IH]; intros p w e w'; cbn [bw_loop].
  - destruct (wr_berr w) as [e0|] eqn:Eb; [intros [= <- <-]; repeat split; auto|].
    destruct (length p <=? wr_size w - length (wr_buf w))%nat; [|discriminate]. intros [= <- <-]. repeat split; auto.
  - destruct (wr_berr w) as [e0|] eqn:Eb; [intros [= <- <-]; repeat split; auto|].
    destruct (length p <=? wr_size w - length (wr_buf w))%nat; [intros [= <- <-]; repeat split; auto|].
    destruct (wr_buf w) as [|b0 b] eqn:E.
    + destruct (cur_write dstep p w) as [[[n e1] w1]| |] eqn:Ec; try discriminate. intros H. apply IH in H.
      apply cur_write_frame in Ec. destruct Ec as (F & _ & _ & Ft & _). destruct H as (K1 & K2 & K3).
      split; [eapply frame_trans; [exact F|exact K1]|]. cbn in K2. split; congruence.
    + destruct (bw_flush dstep (with_buf ((b0 :: b) ++ firstn (wr_size w - length (b0 :: b)) p) None w)) as [[e1 w1]| |] eqn:Ec; try discriminate.
      intros H. apply IH in H. apply bw_flush_frame in Ec. destruct Ec as (F & Ft & _). destruct H as (K1 & K2 & K3).
      split; [eapply frame_trans; [exact F|exact K1]|]. cbn in Ft. split; congruence.
Qed.

(** Write of the buffered writer: success appends all of [p], failure loses a suffix. *)
Lemma bw_loop_ok base lvl : forall f p w x e w', sofar base lvl w x -> bw_loop dstep f p w = WRet (e, w') ->
  wr_berr w = None ->
  (e = None -> exists x', sofar base lvl w' x' /\ x' ++ wr_buf w' = x ++ wr_buf w ++ p) /\
  (e <> None -> wr_zcur w = false -> exists x' t, sofar base lvl w' x' /\ x' ++ t = x ++ wr_buf w ++ p).
Proof.
  induction f as [|f IH]; intros p w x e w' Hs H Hb; cbn [bw_loop] in H; rewrite Hb in H.
  - destruct (length p <=? wr_size w - length (wr_buf w))%nat; [|discriminate]. injection H as <- <-. split; [|congruence].
    intros _. exists x. split; [now apply sofar_buf|reflexivity].
  - destruct (length p <=? wr_size w - length (wr_buf w))%nat.
    { injection H as <- <-. split; [|congruence]. intros _. exists x. split; [now apply sofar_buf|reflexivity]. }
    destruct (wr_buf w) as [|b0 b] eqn:E.
    + destruct (cur_write dstep p w) as [[[n e1] w1]| |] eqn:Ec; try discriminate.
      pose proof (cur_write_frame _ _ _ _ _ Ec) as ((F1&F2&F3&F4&F5&F6&F7&F8&F9) & Fb & Fe & Ft & Hn).
      destruct e1 as [e1|].
      * (* error: the loop stops *)
        assert (Hw' : w' = with_buf [] (Some e1) w1 /\ e = Some e1).
        { destruct f; cbn [bw_loop with_buf wr_berr] in H; now injection H as <- <-. }
        destruct Hw' as [-> ->]. split; [discriminate|]. intros _ Hz.
        destruct (cur_write_ok base lvl p w x n (Some e1) w1 Hs Ec (or_intror Hz)) as [Hs1 _].
        exists (x ++ firstn n p), (skipn n p). split; [now apply sofar_buf|].
        cbn. now rewrite <- app_assoc, firstn_skipn.
      * destruct (cur_write_ok base lvl p w x n None w1 Hs Ec (or_introl eq_refl)) as [Hs1 _].
        destruct (IH (skipn n p) (with_buf [] None w1) (x ++ firstn n p) e w' (sofar_buf _ _ _ _ _ _ Hs1) H eq_refl) as [K1 K2].
        cbn [with_buf wr_buf wr_zcur app] in *. rewrite <- !app_assoc, !firstn_skipn in *. split; [exact K1|].
        intros He Hz. apply K2; [exact He|congruence].
    + remember (b0 :: b) as q. remember (wr_size w - length q) as av.
      destruct (bw_flush dstep (with_buf (q ++ firstn av p) None w)) as [[e1 w1]| |] eqn:Ec; try discriminate.
      pose proof (bw_flush_frame _ _ _ Ec) as ((F1&F2&F3&F4&F5&F6&F7&F8&F9) & Ft & Fe & Fb).
      destruct e1 as [e1|].
      * assert (Hw' : w' = w1 /\ e = Some e1).
        { destruct f; cbn [bw_loop] in H; rewrite Fe in H; now injection H as <- <-. }
        destruct Hw' as [-> ->]. split; [discriminate|]. intros _ Hz.
        destruct (bw_flush_ok base lvl _ x (Some e1) w1 (sofar_buf base lvl w x (q ++ firstn av p) None Hs) Ec (or_intror Hz)) as (x' & K1 & K2).
        exists x', (wr_buf w1 ++ skipn av p). split; [exact K1|].
        rewrite app_assoc, K2. cbn [with_buf wr_buf]. rewrite <- !app_assoc, firstn_skipn. reflexivity.
      * destruct (bw_flush_ok base lvl _ x None w1 (sofar_buf base lvl w x (q ++ firstn av p) None Hs) Ec (or_introl eq_refl)) as (x' & K1 & K2).
        cbn [with_buf wr_buf] in K2. rewrite (Fb eq_refl), app_nil_r in K2. subst x'.
        destruct (IH (skipn av p) w1 _ e w' K1 H Fe) as [L1 L2].
        rewrite (Fb eq_refl) in *. cbn [app] in *. rewrite <- !app_assoc, !firstn_skipn in *. split; [exact L1|].
        intros He Hz. apply L2; [exact He|]. cbn in F4. congruence.
Qed.

(** ** Termination and absence of panics *)
Definition usable w : Prop := wr_open w = true /\ (wr_zcur w = true \/ wr_zlib_on w = true -> wr_zw w <> None).

Lemma zlib_do_total o w : wr_zw w <> None -> exists e w', zlib_do dstep o w = WRet (e, w') /\ wr_zw w' <> None.
Proof.
  unfold zlib_do. destruct (wr_zw w) as [z|]; [|congruence]. intros _.
  destruct (zw_do dstep o z (wr_conn w)) as [[e z'] c']. do 2 eexists. split; [reflexivity|]. discriminate.
Qed.

Lemma cur_write_total p w : (wr_zcur w = true -> wr_zw w <> None) ->
  exists n e w', cur_write dstep p w = WRet (n, e, w') /\ (wr_zw w <> None -> wr_zw w' <> None).
Proof.
  unfold cur_write. destruct (wr_zcur w); intros H.
  - destruct (zlib_do_total (DWrite p) w (H eq_refl)) as (e & w' & -> & K). destruct e; eauto 6.
  - destruct (conn_write p (wr_conn w)) as [[n e] c']. do 3 eexists. split; [reflexivity|]. auto.
Qed.

Lemma cur_write_script p w n e w' : cur_write dstep p w = WRet (n, e, w') ->
  length (cn_script (wr_conn w')) <= length (cn_script (wr_conn w)) /\
  (e = None -> n = length p \/ length (cn_script (wr_conn w')) < length (cn_script (wr_conn w))).
Proof.
  unfold cur_write. destruct (wr_zcur w).
  - unfold zlib_do. destruct (wr_zw w) as [z|]; [|discriminate]. unfold zw_do.
    destruct (snd z); [intros [= <- <- <-]; cbn; split; [lia|discriminate]|].
    destruct (dstep (fst z) (DWrite p)) as [d' ps]. destruct (conn_writes ps (wr_conn w)) as [[e1|] c'] eqn:Ec;
      intros [= <- <- <-]; apply conn_writes_ok in Ec; cbn; destruct Ec as (_ & H & _); split; try lia; try discriminate; auto.
  - destruct (conn_write p (wr_conn w)) as [[n0 e0] c'] eqn:Ec. intros [= <- <- <-].
    apply conn_write_ok in Ec. destruct Ec as (_ & _ & _ & H4 & H5 & _). cbn. split; [lia|]. intros _.
    destruct (cn_script (wr_conn w)) eqn:Es; [left; now apply H5|right; cbn in *; lia].
Qed.

Lemma bw_flush_total w : (wr_zcur w = true -> wr_zw w <> None) ->
  exists e w', bw_flush dstep w = WRet (e, w') /\ (wr_zw w <> None -> wr_zw w' <> None) /\
    length (cn_script (wr_conn w')) <= length (cn_script (wr_conn w)).
Proof.
  intros H. unfold bw_flush. destruct (wr_berr w); [eauto 8|]. destruct (wr_buf w) as [|b0 b]; [eauto 8|].
  destruct (cur_write_total (b0 :: b) w H) as (n & e & w' & E & K). rewrite E.
  apply cur_write_script in E. destruct E as [E _].
  destruct (match e with Some _ => e | None => if (n <? length (b0 :: b))%nat then Some err_short_write else None end);
    do 2 eexists; (split; [reflexivity|]); cbn; auto.
Qed.

Definition busy w : nat := match wr_buf w with [] => 0 | _ => 1 end.

Lemma bw_loop_total : forall f p w, (wr_zcur w = true -> wr_zw w <> None) ->
  (wr_berr w <> None \/ p = [] \/ 2 * length (cn_script (wr_conn w)) + busy w + 1 <= f) ->
  exists e w', bw_loop dstep f p w = WRet (e, w') /\ (wr_zw w <> None -> wr_zw w' <> None).
Proof.
  induction f as [|f IH]; intros p w Hz Hf; cbn [bw_loop].
  - destruct (wr_berr w); [eauto|]. destruct Hf as [Hf|[->|Hf]]; [congruence| |lia].
    cbn [length]. cbn. do 2 eexists. split; [reflexivity|auto].
  - destruct (wr_berr w) eqn:Eb; [eauto|].
    destruct (Nat.leb_spec (length p) (wr_size w - length (wr_buf w))); [do 2 eexists; split; [reflexivity|auto]|].
    destruct Hf as [Hf|[->|Hf]]; [congruence|cbn in *; lia|].
    unfold busy in Hf. destruct (wr_buf w) as [|b0 b] eqn:E.
    + destruct (cur_write_total p w Hz) as (n & e & w' & Ec & K). rewrite Ec.
      pose proof (cur_write_script _ _ _ _ _ Ec) as [S1 S2].
      pose proof (cur_write_frame _ _ _ _ _ Ec) as ((_&_&_&F4&_) & _).
      destruct (IH (skipn n p) (with_buf [] e w')) as (e2 & w2 & -> & K2).
      * cbn. rewrite F4. auto.
      * destruct e as [e|]; [left; cbn; discriminate|].
        destruct (S2 eq_refl) as [->|S3]; [right; left; apply skipn_all|right; right; unfold busy; cbn; lia].
      * do 2 eexists. split; [reflexivity|]. cbn in K2. auto.
    + remember (b0 :: b) as q. remember (wr_size w - length q) as av.
      destruct (bw_flush_total (with_buf (q ++ firstn av p) None w) Hz) as (e & w' & Ec & K & S1). rewrite Ec.
      pose proof (bw_flush_frame _ _ _ Ec) as ((_&_&_&F4&_) & _ & Fe & Fb). cbn in *.
      destruct (IH (skipn av p) w') as (e2 & w2 & -> & K2).
      * rewrite F4. auto.
      * rewrite Fe. destruct e as [e|]; [left; discriminate|]. right; right. unfold busy. rewrite (Fb eq_refl). lia.
      * do 2 eexists. split; [reflexivity|]. auto.
Qed.

Lemma bw_write_total p w : (wr_zcur w = true -> wr_zw w <> None) ->
  exists e w', bw_write dstep p w = WRet (e, w') /\ (wr_zw w <> None -> wr_zw w' <> None).
Proof. intros H. apply bw_loop_total; [exact H|]. right; right. unfold busy. destruct (wr_buf w); lia. Qed.

(** ** Timeouts *)
(** Same writer except for the timeout script and the log of timeouts. *)
Definition quietly w w' : Prop :=
  frame w w' /\ wr_buf w' = wr_buf w /\ wr_berr w' = wr_berr w /\ wr_zw w' = wr_zw w /\ dlv w' = dlv w /\
  cn_script (wr_conn w') = cn_script (wr_conn w).

Lemma quietly_refl w : quietly w w.
Proof. repeat split; auto. Qed.
Lemma quietly_sofar base lvl w w' x : quietly w w' -> sofar base lvl w x -> sofar base lvl w' x.
Proof.
  intros ((_&_&_&F4&_&_&_&_&F9) & _ & _ & Fz & Fd & _) [y H1 H2|ops H1 H2 H3 H4 H5].
  - apply sf_plain; congruence.
  - apply sf_zlib; auto; congruence.
Qed.

Lemma quietly_timeout_on w e t : quietly w (with_treplies t (with_io (conn_log (EvTimeout true e) (wr_conn w)) (wr_zw w) w)).
Proof. repeat split; auto. unfold dlv. cbn. rewrite delivered_app. cbn. now rewrite app_nil_r. Qed.
Lemma quietly_timeout_off w : quietly w (with_io (conn_log (EvTimeout false None) (wr_conn w)) (wr_zw w) w).
Proof. repeat split; auto. unfold dlv. cbn. rewrite delivered_app. cbn. now rewrite app_nil_r. Qed.

Lemma timed_cases body w e w' : timed body w = WRet (e, w') ->
  (exists err w1, e = Some err /\ w' = set_error err w1 /\ quietly w w1) \/
  (exists w1 w2, body w1 = WRet (e, w2) /\ quietly w w1 /\ quietly w2 w').
Proof.
  unfold timed. destruct (wr_timeout w).
  - destruct (hd None (wr_treplies w)) as [err|] eqn:Et.
    + intros [= <- <-]. left. do 2 eexists. split; [reflexivity|]. split; [reflexivity|]. apply quietly_timeout_on.
    + match goal with |- context [body ?x] => set (w1 := x) end.
      destruct (body w1) as [[e2 w2]| |] eqn:Eb; try discriminate. intros [= <- <-].
      right. exists w1, w2. split; [exact Eb|]. split; [apply quietly_timeout_on|apply quietly_timeout_off].
  - intros H. right. exists w, w'. split; [exact H|]. split; apply quietly_refl.
Qed.

Lemma timed_total body w : (forall w1, quietly w w1 -> exists e w2, body w1 = WRet (e, w2)) ->
  exists e w', timed body w = WRet (e, w').
Proof.
  intros H. unfold timed. destruct (wr_timeout w).
  - destruct (hd None (wr_treplies w)) as [err|]; [eauto|].
    match goal with |- context [body ?x] => destruct (H x (quietly_timeout_on _ _ _)) as (e & w2 & ->) end. eauto.
  - apply H, quietly_refl.
Qed.

Lemma frame_quietly w w' : quietly w w' -> frame w w'.
Proof. now intros []. Qed.

(** ** Flush *)
Lemma flush_ok base lvl w x e w' : sofar base lvl w x -> wr_zlib_on w = wr_zcur w -> wr_err w = None ->
  flush dstep w = WRet (e, w') ->
  match e with
  | None => sofar base lvl w' (x ++ wr_buf w) /\ frame w w' /\ wr_buf w' = [] /\ wr_berr w' = None
  | Some er => wr_err w' = Some er /\
      (wr_zcur w = false -> wr_zcur w' = false /\ wr_zlib_on w' = false /\ wr_open w' = wr_open w /\ wr_hooks w' = wr_hooks w /\
         exists x', sofar base lvl w' x' /\ x' ++ wr_buf w' = x ++ wr_buf w)
  end.
Proof.
  intros Hs Hzz Herr. unfold flush. rewrite Herr. intros H.
  apply timed_cases in H. destruct H as [(err & w1 & -> & -> & Hq)|(w1 & w2 & Hb & Hq1 & Hq2)].
  { split; [reflexivity|]. intros Hz. pose proof (quietly_sofar _ _ _ _ _ Hq Hs) as Hs1.
    destruct Hq as ((F1&F2&F3&F4&F5&F6&F7&F8&F9) & Q1 & _). cbn. repeat split; try congruence.
    exists x. split; [|congruence].
    destruct Hs1 as [y H1 H2|ops H1 H2 H3 H4 H5]; [now apply sf_plain|now apply sf_zlib]. }
  pose proof (quietly_sofar _ _ _ _ _ Hq1 Hs) as Hs1.
  destruct Hq1 as (F & Q1 & Q2 & Q3 & Q4 & Q5). pose proof F as (F1&F2&F3&F4&F5&F6&F7&F8&F9).
  destruct (bw_flush dstep w1) as [[e1 w3]| |] eqn:Ef; try discriminate.
  pose proof (bw_flush_frame _ _ _ Ef) as (Fr & Ft & Fe & Fb). pose proof Fr as (G1&G2&G3&G4&G5&G6&G7&G8&G9).
  destruct e1 as [e1|]; cbn [checked] in Hb.
  - injection Hb as <- <-. pose proof Hq2 as ((K1&K2&K3&K4&K5&K6&K7&K8&K9) & L1 & L2 & L3 & L4 & L5). cbn in K1, K2, K3, K4, K5, K6, K7, K8, L1, L2, L3, L4, L5.
    split; [congruence|]. intros Hz. repeat split; try congruence.
    destruct (bw_flush_ok base lvl w1 x (Some e1) w3 Hs1 Ef) as (x' & M1 & M2); [right; congruence|].
    exists x'. split; [|congruence]. apply (quietly_sofar _ _ _ _ _ Hq2).
    destruct M1 as [y H1 H2|ops H1 H2 H3 H4 H5]; [now apply sf_plain|now apply sf_zlib].
  - destruct (bw_flush_ok base lvl w1 x None w3 Hs1 Ef (or_introl eq_refl)) as (x' & M1 & M2).
    rewrite (Fb eq_refl), app_nil_r, Q1 in M2. subst x'.
    destruct (wr_zlib_on w3) eqn:Ez.
    + assert (Hzc : wr_zcur w3 = true) by congruence.
      destruct (zlib_do dstep DFlush w3) as [[[e4|] w4]| |] eqn:Ed; try discriminate; cbn [checked] in Hb; injection Hb as <- <-.
      * destruct Hq2 as ((K1&K2&K3&K4&K5&K6&K7&K8&K9) & L1 & L2 & L3 & L4 & L5). cbn in K8. split; [congruence|]. congruence.
      * pose proof (zlib_do_ok base lvl w3 DFlush _ w4 M1 Hzc Ed) as (ops & N1 & N2 & N3 & N4 & N5 & N6 & N7 & N8 & N9).
        assert (Hso : sofar base lvl w4 (x ++ wr_buf w)).
        { rewrite N1. replace (written ops) with (written (ops ++ [DFlush])) by (rewrite written_app; cbn; now rewrite app_nil_r).
          destruct N4 as (_&_&_&P4&_). apply sf_zlib; auto; [congruence|]. rewrite in_app_iff. cbn. intuition discriminate. }
        split; [now apply (quietly_sofar _ _ _ _ _ Hq2)|]. split.
        { eapply frame_trans; [exact F|]. eapply frame_trans; [exact Fr|]. eapply frame_trans; [exact N4|]. now apply frame_quietly. }
        destruct Hq2 as (_ & L1 & L2 & _). rewrite L1, L2, N5, N6. split; [now apply Fb|exact Fe].
    + injection Hb as <- <-. split; [now apply (quietly_sofar _ _ _ _ _ Hq2)|]. split.
      { eapply frame_trans; [exact F|]. eapply frame_trans; [exact Fr|]. now apply frame_quietly. }
      destruct Hq2 as (_ & L1 & L2 & _). rewrite L1, L2. split; [now apply Fb|exact Fe].
Qed.

(** Buffering a line. *)
Definition put (data : bytes) w := timed (fun w1 => checked (bw_write dstep data w1) (fun w2 => WRet (None, w2))) w.

Lemma sofar_err base lvl w x e : sofar base lvl w x -> sofar base lvl (set_error e w) x.
Proof. intros [y H1 H2|ops H1 H2 H3 H4 H5]; [now apply sf_plain|now apply sf_zlib]. Qed.

Lemma put_ok base lvl w x e w' d : sofar base lvl w x -> wr_berr w = None -> put d w = WRet (e, w') ->
  match e with
  | None => frame w w' /\ wr_berr w' = None /\ exists x', sofar base lvl w' x' /\ x' ++ wr_buf w' = x ++ wr_buf w ++ d
  | Some er => wr_err w' = Some er /\
      (wr_zcur w = false -> wr_zcur w' = false /\ wr_zlib_on w' = wr_zlib_on w /\ wr_open w' = wr_open w /\ wr_hooks w' = wr_hooks w /\
        exists x', sofar base lvl w' x' /\
         ((wr_berr w' = None /\ x' ++ wr_buf w' = x ++ wr_buf w) \/
          (wr_berr w' <> None /\ exists t, x' ++ t = x ++ wr_buf w ++ d)))
  end.
Proof.
  intros Hs Hbe H. apply timed_cases in H. destruct H as [(err & w1 & -> & -> & Hq)|(w1 & w2 & Hb & Hq1 & Hq2)].
  { split; [reflexivity|]. intros Hz. pose proof (quietly_sofar _ _ _ _ _ Hq Hs) as Hs1.
    destruct Hq as ((F1&F2&F3&F4&F5&F6&F7&F8&F9) & Q1 & Q2 & _). cbn. repeat split; try congruence.
    exists x. split; [now apply sofar_err|]. left. split; congruence. }
  pose proof (quietly_sofar _ _ _ _ _ Hq1 Hs) as Hs1.
  destruct Hq1 as (F & Q1 & Q2 & Q3 & Q4 & Q5). pose proof F as (F1&F2&F3&F4&F5&F6&F7&F8&F9).
  destruct (bw_write dstep d w1) as [[e1 w3]| |] eqn:Ef; try discriminate.
  unfold bw_write in Ef.
  pose proof (bw_loop_frame _ _ _ _ _ Ef) as (Fr & Ft & Fe). pose proof Fr as (G1&G2&G3&G4&G5&G6&G7&G8&G9).
  destruct (bw_loop_ok base lvl _ _ _ x e1 w3 Hs1 Ef) as [K1 K2]; [congruence|].
  destruct e1 as [e1|]; cbn [checked] in Hb; injection Hb as <- <-.
  - pose proof Hq2 as ((P1&P2&P3&P4&P5&P6&P7&P8&P9) & L1 & L2 & L3 & L4 & L5).
    cbn in P1, P2, P3, P4, P5, P6, P7, P8, L1, L2, L3, L4, L5.
    split; [congruence|]. intros Hz. repeat split; try congruence.
    destruct K2 as (x' & t & M1 & M2); [discriminate|congruence|].
    exists x'. split; [apply (quietly_sofar _ _ _ _ _ Hq2); now apply sofar_err|].
    right. split; [congruence|]. exists t. congruence.
  - destruct K1 as (x' & M1 & M2); [reflexivity|].
    split; [eapply frame_trans; [exact F|]; eapply frame_trans; [exact Fr|]; now apply frame_quietly|].
    destruct Hq2 as (Fq & L1 & L2 & L3 & L4 & L5) eqn:E. split; [congruence|].
    exists x'. split; [|congruence]. apply (quietly_sofar _ _ _ _ _ Hq2 M1).
Qed.

Lemma write_line_put s d w : write_line dstep s d w =
  match wr_err w with
  | Some e => WRet (Some e, s, w)
  | None =>
      match run_hooks (wr_hooks w) s d with
      | (s', HErr e) => WRet (Some e, s', set_error e w)
      | (s', HDrop) => WRet (None, s', w)
      | (s', HPass) => match put d w with WRet (e, w') => WRet (e, s', w') | WPan => WPan | WStuck => WStuck end
      end
  end.
Proof. reflexivity. Qed.
End Facts.
