(** Proofs about any Timeout callback that calls the writer it belongs to: the model and what is told by the methods called. *)
From Verif Require Import Base LineReader LineWriter SpecLine SpecWriter SpecWriterReentry LineWriterFacts WriterReentryFacts TimeoutReentry SpecTimeoutReentry TimeoutReentryFacts.

Section Parts.
Context {dst : Type} (dinit : Z -> dst) (dstep : dst -> dop -> dst * list bytes).
Notation wr := (writer unit dst).
Lemma dress_lone (x : wr) : wr_hooks x = [] -> @dress unit unit dst [] (wr_err x) x = x.
Proof. intros H. rewrite <- H. destruct x; reflexivity. Qed.
Lemma cur_write_buf p b e (x : wr) : cur_write dstep p (with_buf b e x) = lift_d (with_buf b e) (cur_write dstep p x).
Proof.
  unfold cur_write, zlib_do. cbn [wr_zcur wr_zw wr_conn with_buf]. destruct (wr_zcur x).
  - destruct (wr_zw x) as [z|]; [|reflexivity]. destruct (zw_do dstep (DWrite p) z (wr_conn x)) as [[[e1|] z'] c']; reflexivity.
  - destruct (conn_write p (wr_conn x)) as [[n e1] c']. reflexivity.
Qed.
Definition sent p (x : wr) : wout (nat * option error * wr) := if wr_open x then cur_write dstep p x else WPan.
Lemma with_buf_same (x : wr) y b e : cur_write dstep y x = WRet (b, e) -> with_buf (wr_buf x) (wr_berr x) e = e.
Proof.
  unfold cur_write, zlib_do. destruct (wr_zcur x).
  - destruct (wr_zw x) as [z|]; [|discriminate]. destruct (zw_do dstep (DWrite y) z (wr_conn x)) as [[[e1|] z'] c']; intros E; injection E as <- <-; reflexivity.
  - destruct (conn_write y (wr_conn x)) as [[n e1] c']. intros E. injection E as <- <-. reflexivity.
Qed.
Lemma sends_iff p (x : wr) r : wr_hooks x = [] -> sends dstep p x r <-> told (sent p x) = Some r.
Proof.
  intros H.
  assert (E : write dstep p (emptied x) = lift_d emptied (cur_write dstep p x)).
  { unfold write. cbn [wr_err wr_buf emptied with_buf dress]. fold (@dress unit unit dst [] None x). fold (emptied x). unfold emptied at 1. rewrite cur_write_buf, cur_write_dress.
    destruct (cur_write dstep p x) as [[a y]| |]; reflexivity. }
  assert (B : forall a y, cur_write dstep p x = WRet (a, y) -> with_buf (wr_buf x) (wr_berr x) (dress [] (wr_err x) (emptied y)) = y).
  { intros a y C. pose proof (with_buf_same _ _ _ _ C) as WB. destruct a as [n e]. apply cur_write_frame in C. destruct C as [(_&F2&_&_&_&_&_&F8&_) _].
    rewrite <- WB. rewrite <- F8. destruct y. cbn in *. rewrite F2, H. reflexivity. }
  unfold sent. split.
  - intros G. inversion G as [n e y O1 O2|O1 O2|O1]; subst; rewrite O1; [rewrite E in O2|rewrite E in O2|reflexivity].
    + destruct (cur_write dstep p x) as [[a z]| |] eqn:C; try discriminate. cbn [lift_d] in O2. injection O2 as -> <-. rewrite (B _ _ eq_refl). reflexivity.
    + destruct (cur_write dstep p x) as [[a z]| |]; try discriminate. reflexivity.
  - destruct (wr_open x) eqn:O1; [|intros G; injection G as <-; now apply se_closed].
    destruct (cur_write dstep p x) as [[[n e] z]| |] eqn:C; intros G; cbn in G; try discriminate; injection G as <-.
    + rewrite <- (B _ _ eq_refl). apply se_done; [exact O1|]. rewrite E. reflexivity.
    + apply se_panic; [exact O1|]. rewrite E. reflexivity.
Qed.
Lemma enable_ready lvl (x : wr) : wr_timeout x = false -> enable_zlib_level dinit dstep lvl (ready x) =
  (let fresh := match wr_zw x with None => true | Some _ => negb (wr_lvl x =? lvl)%Z end in
   if (fresh && negb (level_ok lvl))%bool then WRet (Some err_zlib_level, with_zmode true (wr_zcur x) (wr_zw x) (wr_lvl x) (emptied x))
   else WRet (None, with_buf [] None (with_zmode true true (Some (dinit lvl, None)) lvl (emptied x)))).
Proof. intros T. unfold enable_zlib_level, flush, timed, ready. cbn [wr_err wr_zlib_on wr_timeout with_zmode emptied with_buf dress]. rewrite T. cbn [bw_flush wr_berr wr_buf with_zmode with_buf checked wr_zlib_on]. reflexivity. Qed.
Lemma zips_iff lvl (x : wr) r : wr_hooks x = [] -> wr_timeout x = false -> zips dinit dstep lvl x r <-> told (zlib_body dinit lvl x) = Some r.
Proof.
  intros H T. pose proof (enable_ready lvl x T) as E. cbv zeta in E. unfold zlib_body. cbv zeta. cbn [wr_zw wr_lvl with_zmode wr_open]. split.
  - intros G. inversion G as [y O1 O2|e y O2|y O1 O2]; subst; rewrite E in O2; destruct (_ && _)%bool; try discriminate.
    + rewrite O1. injection O2 as <-. cbn. f_equal. f_equal. f_equal. unfold dress, with_buf, with_zmode. cbn. rewrite H. reflexivity.
    + injection O2 as <- <-. reflexivity.
    + rewrite O1. reflexivity.
  - destruct (_ && _)%bool eqn:Ef.
    + intros G. injection G as <-. eapply zi_level. exact E.
    + destruct (wr_open x) eqn:O1; intros G; injection G as <-; [|eapply zi_closed; [exact O1|exact E]].
      match goal with |- zips _ _ _ _ (Some (None, ?z)) => replace z with (@dress unit unit dst [] (wr_err x) (with_buf [] None (with_zmode true true (Some (dinit lvl, None)) lvl (emptied x)))) end.
      * apply zi_done; [exact O1|exact E].
      * unfold dress, with_buf, with_zmode. cbn. rewrite H. reflexivity.
Qed.
Lemma verdict_iff {W} (hs : list (hook W)) : forall w d w' v, verdict hs w d w' v <-> run_hooks hs w d = (w', v).
Proof.
  induction hs as [|h hs IH]; intros w d w' v; cbn [run_hooks]; split; intros H.
  - inversion H; subst. reflexivity.
  - injection H as <- <-. constructor.
  - inversion H as [|? ? ? ? w1 ? ? E V|? ? ? ? ? ? E N]; subst; rewrite E; [now apply IH|now destruct v].
  - destruct (h w d) as [w1 [| |e]] eqn:E; [eapply v_pass; [exact E|now apply IH]|injection H as <- <-; now apply v_stop|injection H as <- <-; now apply v_stop].
Qed.
End Parts.

Section Told.
Context {W dst : Type} (dinit : Z -> dst) (dstep : dst -> dop -> dst * list bytes).
Notation wr := (writer unit dst).
Notation tw := (@twriter W dst).
Notation out := (option (wout (nat * option error * W * tw))).
Definition fit (s : tw) : Prop := lone (tw_rest s).

(** ** Writers without callbacks of their own stay so *)
Lemma zlib_body_lone lvl (x : wr) e y : lone x -> zlib_body dinit lvl x = WRet (e, y) -> lone y.
Proof.
  intros [[L1 L2] L3]. unfold zlib_body. cbv zeta. destruct (_ && _)%bool; [intros E; injection E as <- <-; split; [split|]; auto|].
  cbn [wr_open with_zmode]. destruct (wr_open x) eqn:O; [|discriminate]. intros E. injection E as <- <-. split; [split|]; auto.
Qed.
Lemma sent_lone p (x : wr) a y : lone x -> sent dstep p x = WRet (a, y) -> lone y.
Proof.
  intros [L1 L3]. unfold sent. destruct (wr_open x); [|discriminate]. intros E. destruct a as [n e]. pose proof (cur_write_sound dstep p x L1) as HS. rewrite E in HS. split; [exact HS|].
  apply cur_write_frame in E. destruct E as [(F1&_) _]. congruence.
Qed.
Lemma set_error_lone e (x : wr) : lone x -> lone (set_error e x).
Proof. intros [[L1 L2] L3]. split; [split|]; [exact L1|discriminate|exact L3]. Qed.
Section Keep.
Variable again : W -> wcall -> tw -> out.
Hypothesis Ha : forall w c s a w' s', fit s -> again w c s = Some (WRet (a, w', s')) -> fit s'.
Lemma prog_fit : forall p (s : tw) w e s', fit s -> run_tprog again p s = Some (WRet (w, e, s')) -> fit s'.
Proof.
  induction p as [w v| |w c k IH|k IH|on er p IH|t p IH]; intros s w1 v1 s1 F; cbn [run_tprog].
  - intros R. now injection R as <- <- <-.
  - discriminate.
  - destruct (again w c s) as [[[[a w2] s2]| |]|] eqn:A; try discriminate. apply IH. exact (Ha _ _ _ _ _ _ F A).
  - apply IH. exact F.
  - apply IH. exact F.
  - apply IH. exact F.
Qed.
Lemma timed_fit o w (s : tw) n w' s' : sets_timeout o -> fit s -> t_timed again (body_of dstep o) w s = Some (WRet (n, w', s')) -> fit s'.
Proof.
  intros Ho F. unfold t_timed. destruct (tw_timeout s) as [t|].
  - destruct (run_tprog again (t w true) s) as [[[[w1 [e|]] s1]| |]|] eqn:R; try discriminate; pose proof (prog_fit _ _ _ _ _ F R) as F1.
    + intros E. injection E as <- <- <-. exact (set_error_lone e _ F1).
    + destruct (body_of dstep o (tw_rest s1)) as [[e x]| |] eqn:B; try discriminate. pose proof (body_lone dstep _ _ _ _ F1 Ho B) as F2. destruct (tw_timeout s1) as [t'|]; [|discriminate].
      destruct (run_tprog again (t' w1 false) (t_with x s1)) as [[[[w2 v] s2]| |]|] eqn:R2; try discriminate. intros E. injection E as <- <- <-. eapply prog_fit; [|exact R2]. exact F2.
  - destruct (body_of dstep o (tw_rest s)) as [[e x]| |] eqn:B; try discriminate. intros E. cbn in E. injection E as <- <- <-. exact (body_lone dstep _ _ _ _ F Ho B).
Qed.
End Keep.
Lemma flush_timed again w (s : tw) : t_flush dstep again w s = match wr_err (tw_rest s) with Some e => Some (WRet (O, Some e, w, s)) | None => t_timed again (body_of dstep OFlush) w s end.
Proof. reflexivity. Qed.
Lemma cur_sent p w (s : tw) : t_cur dstep p w s = t_plain (fun a => a) w s (sent dstep p (tw_rest s)).
Proof. unfold t_cur, sent. destruct (wr_open (tw_rest s)); reflexivity. Qed.
Lemma plain_fit {A} (c : A -> nat * option error) w (s : tw) r a w' s' : (forall b y, r = WRet (b, y) -> lone y) -> t_plain c w s r = Some (WRet (a, w', s')) -> fit s'.
Proof. intros H. destruct r as [[b y]| |]; try discriminate. cbn. intros E. injection E as <- <- <-. exact (H _ _ eq_refl). Qed.
Lemma call_fit : forall f w c (s : tw) a w' s', fit s -> t_call dinit dstep f w c s = Some (WRet (a, w', s')) -> fit s'.
Proof.
  induction f as [|f IH]; intros w c s a w' s' F; [discriminate|].
  assert (T : forall o w n w' s', sets_timeout o -> t_timed (t_call dinit dstep f) (body_of dstep o) w s = Some (WRet (n, w', s')) -> fit s').
  { intros o w0 n w0' s0' Ho. apply timed_fit; auto. }
  destruct c as [d|p| |lvl| |]; cbn [t_call].
  - unfold t_line. destruct (wr_err (tw_rest s)) as [e|]; [intros E; now injection E as <- <- <-|].
    destruct (run_hooks (tw_hooks s) w d) as [w1 [| |e]]; [apply (T (OLine d)); exact Logic.I|intros E; now injection E as <- <- <-|intros E; injection E as <- <- <-; exact (set_error_lone e _ F)].
  - unfold t_write. rewrite flush_timed. destruct (wr_err (tw_rest s)) as [e|]; [intros E; now injection E as <- <- <-|].
    assert (C : forall w s1, fit s1 -> t_cur dstep p w s1 = Some (WRet (a, w', s')) -> fit s').
    { intros w0 s1 F1. rewrite cur_sent. apply plain_fit. intros b y. exact (sent_lone _ _ _ _ F1). }
    destruct (wr_buf (tw_rest s)); [apply C; exact F|].
    destruct (t_timed _ (body_of dstep OFlush) w s) as [[[[[n [e|]] w1] s1]| |]|] eqn:R; try discriminate; pose proof (T OFlush _ _ _ _ Logic.I R) as F1; [intros E; now injection E as <- <- <-|apply C; exact F1].
  - rewrite flush_timed. destruct (wr_err (tw_rest s)) as [e|]; [intros E; now injection E as <- <- <-|]. apply (T OFlush). exact Logic.I.
  - unfold t_zlib. rewrite flush_timed. destruct (wr_err (tw_rest s)) as [e|]; [intros E; now injection E as <- <- <-|]. destruct (wr_zlib_on (tw_rest s)); [intros E; now injection E as <- <- <-|].
    destruct (t_timed _ (body_of dstep OFlush) w s) as [[[[[n [e|]] w1] s1]| |]|] eqn:R; try discriminate; pose proof (T OFlush _ _ _ _ Logic.I R) as F1; [intros E; now injection E as <- <- <-|].
    apply plain_fit. intros b y. exact (zlib_body_lone _ _ _ _ F1).
  - apply plain_fit. intros b y E. apply (run_op_lone dinit dstep ODisable (tw_rest s) O b tt y F). cbn [run_op]. now rewrite E.
  - apply plain_fit. intros b y E. apply (run_op_lone dinit dstep OClose (tw_rest s) O b tt y F). cbn [run_op]. now rewrite E.
Qed.

(** ** The model is told right *)
Section Sound.
Variable again : W -> wcall -> tw -> out.
Hypothesis Hf : forall w c s a w' s', fit s -> again w c s = Some (WRet (a, w', s')) -> fit s'.
Hypothesis Ha : forall w c s r, fit s -> again w c s = Some r -> sane r /\ ucalls dinit dstep w c s (tell r).
Lemma prog_told : forall p (s : tw) r, fit s -> run_tprog again p s = Some r -> sane r /\ udoes dinit dstep p s (tell r).
Proof.
  induction p as [w v| |w c k IH|k IH|on er p IH|t p IH]; intros s r F; cbn [run_tprog]; intros H.
  - injection H as <-. split; [exact Logic.I|constructor].
  - injection H as <-. split; [exact Logic.I|constructor].
  - destruct (again w c s) as [[[[a w2] s2]| |]|] eqn:A; try discriminate; destruct (Ha _ _ _ _ F A) as [_ U].
    + destruct (IH _ _ _ _ (Hf _ _ _ _ _ _ F A) H) as [S0 D]. split; [exact S0|]. destruct a as [n e]. eapply ud_call; eauto.
    + injection H as <-. split; [exact Logic.I|]. now apply ud_call_panic.
  - destruct (IH _ _ _ F H) as [S0 D]. split; [exact S0|]. destruct s as [t hs x]. now apply ud_err.
  - destruct s as [t hs x]. destruct (IH (mkTwriter t hs (marked on er x)) r F H) as [S0 D]. split; [exact S0|]. now apply ud_mark.
  - destruct s as [t0 hs x]. destruct (IH (mkTwriter t hs x) r F H) as [S0 D]. split; [exact S0|]. now apply ud_set.
Qed.
Lemma goes_told o (x : wr) r : lone x -> sets_timeout o -> body_of dstep o x = r -> r <> WStuck -> goes dinit dstep o x (tell r).
Proof.
  intros [[L1 L2] L3] Ho B N. apply goes_iff; auto. unfold told_t. rewrite B. destruct r; try reflexivity. now elim N.
Qed.
Lemma timed_told o w (s : tw) r : sets_timeout o -> fit s -> t_timed again (body_of dstep o) w s = Some r -> sane r /\ utimed dinit dstep o w s (tell r).
Proof.
  intros Ho F. destruct s as [[t|] hs x]; unfold t_timed; cbn [tw_timeout tw_rest].
  - destruct (run_tprog again (t w true) (mkTwriter (Some t) hs x)) as [[[[w1 v] [t1 hs1 x1]]| |]|] eqn:R; try discriminate; destruct (prog_told _ _ _ F R) as [_ D]; cbn [tell] in D.
    + pose proof (prog_fit again Hf _ _ _ _ _ F R) as F1. destruct v as [e|].
      * intros H. injection H as <-. split; [exact Logic.I|]. cbn [tell]. unfold t_with. cbn [tw_timeout tw_hooks tw_rest].
        replace (set_error e x1) with (@dress unit unit dst [] (Some e) x1) by (unfold set_error, dress; destruct F1 as [[F1 _] _]; cbn in F1; rewrite F1; reflexivity). now apply ut_refused.
      * cbn [tw_rest tw_timeout]. destruct (body_of dstep o x1) as [[e x2]| |] eqn:B; try discriminate; pose proof (goes_told o x1 _ F1 Ho B ltac:(discriminate)) as G; cbn [tell] in G.
        -- destruct t1 as [t1|]; [|intros H; injection H as <-; split; [exact Logic.I|]; eapply ut_nil; eauto].
           unfold t_with. cbn [tw_timeout tw_hooks]. destruct (run_tprog again (t1 w1 false) _) as [q|] eqn:R2; [|discriminate].
           destruct (prog_told _ (mkTwriter (Some t1) hs1 x2) _ (body_lone dstep _ _ _ _ F1 Ho B) R2) as [S2 D2].
           pose proof (ut_done dinit dstep o t w hs x w1 t1 hs1 x1 e x2 _ D G D2) as U.
           destruct q as [[[w2 v2] s2]| |]; intros H; try discriminate; injection H as <-; (split; [exact Logic.I|exact U]).
        -- intros H. injection H as <-. split; [exact Logic.I|]. eapply ut_work; eauto.
    + intros H. injection H as <-. split; [exact Logic.I|]. now apply ut_panic.
  - destruct (body_of dstep o x) as [[e y]| |] eqn:B; try discriminate; pose proof (goes_told o x _ F Ho B ltac:(discriminate)) as G; cbn [tell] in G; cbn [t_plain]; intros H; injection H as <-;
      (split; [exact Logic.I|]); [exact (ut_none dinit dstep o w hs x (Some (e, y)) G)|exact (ut_none dinit dstep o w hs x None G)].
Qed.
End Sound.
Theorem call_told : forall f w c (s : tw) r, fit s -> t_call dinit dstep f w c s = Some r -> sane r /\ ucalls dinit dstep w c s (tell r).
Proof.
  induction f as [|f IH]; intros w c [t hs x] r F; [discriminate|].
  assert (T : forall o w r, sets_timeout o -> t_timed (t_call dinit dstep f) (body_of dstep o) w (mkTwriter t hs x) = Some r -> sane r /\ utimed dinit dstep o w (mkTwriter t hs x) (tell r)).
  { intros o w0 r0 Ho. apply timed_told; auto. apply call_fit. }
  assert (TF : forall o w n w' s', sets_timeout o -> t_timed (t_call dinit dstep f) (body_of dstep o) w (mkTwriter t hs x) = Some (WRet (n, w', s')) -> fit s').
  { intros o w0 n w0' s0' Ho. apply timed_fit; auto. apply call_fit. }
  destruct c as [d|p| |lvl| |]; cbn [t_call].
  - unfold t_line. cbn [tw_rest tw_hooks]. destruct (wr_err x) as [e|] eqn:Ee; [intros H; injection H as <-; split; [exact Logic.I|]; now apply uc_before|].
    destruct (run_hooks hs w d) as [w1 v] eqn:V. apply verdict_iff in V. destruct v as [| |e].
    + intros H. destruct (T (OLine d) w1 r Logic.I H) as [S0 U]. split; [exact S0|]. eapply uc_line; eauto.
    + intros H. injection H as <-. split; [exact Logic.I|]. now apply uc_line_drop.
    + intros H. injection H as <-. split; [exact Logic.I|]. unfold t_with. cbn [tw_timeout tw_hooks tell].
      replace (set_error e x) with (@dress unit unit dst [] (Some e) x) by (unfold set_error, dress; destruct F as [[F1 _] _]; cbn in F1; rewrite F1; reflexivity). now apply uc_line_error.
  - unfold t_write. rewrite flush_timed. cbn [tw_rest]. destruct (wr_err x) as [e|] eqn:Ee; [intros H; injection H as <-; split; [exact Logic.I|]; now apply uc_before|].
    assert (C : forall w t1 hs1 x1 r, fit (mkTwriter t1 hs1 x1) -> t_cur dstep p w (mkTwriter t1 hs1 x1) = Some r -> sane r /\ exists q, sends dstep p x1 q /\ tell r = put_back_n w t1 hs1 q).
    { intros w0 t1 hs1 x1 r0 [[F1 _] _]. rewrite cur_sent. cbn [tw_rest] in *. pose proof (sends_iff dstep p x1) as SI.
      destruct (sent dstep p x1) as [[[n e] y]| |] eqn:Es; try discriminate; cbn [t_plain]; intros H; injection H as <-; (split; [exact Logic.I|]);
        [exists (Some (n, e, y))|exists None]; (split; [apply SI; [exact F1|reflexivity]|reflexivity]). }
    destruct (wr_buf x) as [|b bs] eqn:Eb.
    + intros H. destruct (C _ _ _ _ _ F H) as (S0 & q & Q1 & Q2). split; [exact S0|]. rewrite Q2. now apply uc_write.
    + assert (N : wr_buf x <> []) by (rewrite Eb; discriminate).
      destruct (t_timed _ (body_of dstep OFlush) w _) as [[[[[n [e|]] w1] [t1 hs1 x1]]| |]|] eqn:R; try discriminate; pose proof (proj2 (T OFlush _ _ Logic.I R)) as U; cbn [tell] in U.
      * intros H. injection H as <-. split; [exact Logic.I|]. now apply uc_write_fails.
      * intros H. destruct (C _ _ _ _ _ (TF OFlush _ _ _ _ Logic.I R) H) as (S0 & q & Q1 & Q2). split; [exact S0|]. rewrite Q2. eapply uc_write_flush; eauto.
      * intros H. injection H as <-. split; [exact Logic.I|]. now apply uc_write_panic.
      * destruct (proj1 (T OFlush _ _ Logic.I R)).
  - rewrite flush_timed. cbn [tw_rest]. destruct (wr_err x) as [e|] eqn:Ee; [intros H; injection H as <-; split; [exact Logic.I|]; now apply uc_before|].
    intros H. destruct (T OFlush w r Logic.I H) as [S0 U]. split; [exact S0|]. now apply uc_flush.
  - unfold t_zlib. rewrite flush_timed. cbn [tw_rest]. destruct (wr_err x) as [e|] eqn:Ee; [intros H; injection H as <-; split; [exact Logic.I|]; now apply uc_before|].
    destruct (wr_zlib_on x) eqn:Ez; [intros H; injection H as <-; split; [exact Logic.I|]; now apply uc_zlib_on|].
    destruct (t_timed _ (body_of dstep OFlush) w _) as [[[[[n [e|]] w1] [t1 hs1 x1]]| |]|] eqn:R; try discriminate; pose proof (proj2 (T OFlush _ _ Logic.I R)) as U; cbn [tell] in U.
    + intros H. injection H as <-. split; [exact Logic.I|]. now apply uc_zlib_fails.
    + pose proof (TF OFlush _ _ _ _ Logic.I R) as [[F1 _] F3]. cbn [tw_rest] in *. pose proof (zips_iff dinit dstep lvl x1) as ZI.
      destruct (zlib_body dinit lvl x1) as [[e y]| |] eqn:Es; try discriminate; cbn [t_plain]; intros H; injection H as <-; (split; [exact Logic.I|]).
      * exact (uc_zlib dinit dstep lvl w t hs x n w1 t1 hs1 x1 (Some (e, y)) Ee Ez U (proj2 (ZI _ F1 F3) eq_refl)).
      * exact (uc_zlib dinit dstep lvl w t hs x n w1 t1 hs1 x1 None Ee Ez U (proj2 (ZI _ F1 F3) eq_refl)).
    + intros H. injection H as <-. split; [exact Logic.I|]. now apply uc_zlib_panic.
    + destruct (proj1 (T OFlush _ _ Logic.I R)).
  - cbn [tw_rest]. destruct (disable_zlib dstep x) as [[e y]| |] eqn:E; try discriminate; cbn [t_plain]; intros H; injection H as <-; (split; [exact Logic.I|]); [now apply uc_unzip|now apply uc_unzip_panic].
  - cbn [tw_rest tw_timeout]. destruct (close_writer dstep x) as [[e y]| |] eqn:E; try discriminate; cbn [t_plain]; intros H; injection H as <-; (split; [exact Logic.I|]); [now apply uc_close|now apply uc_close_panic].
Qed.

(** ** More fuel, and all that is told happens *)
Lemma prog_more a b : finer a b -> forall p (s : tw) r, run_tprog a p s = Some r -> run_tprog b p s = Some r.
Proof.
  intros F. induction p as [w v| |w c k IH|k IH|on er p IH|t p IH]; intros s r H; cbn [run_tprog] in *; auto.
  destruct (a w c s) as [q|] eqn:A; [|discriminate]. rewrite (F _ _ _ _ A). destruct q as [[[a0 w2] s2]| |]; auto.
Qed.
Lemma timed_more a b body w (s : tw) r : finer a b -> t_timed a body w s = Some r -> t_timed b body w s = Some r.
Proof.
  intros F. unfold t_timed. destruct (tw_timeout s) as [t|]; auto. destruct (run_tprog a (t w true) s) as [q|] eqn:R; [|discriminate]. rewrite (prog_more _ _ F _ _ _ R).
  destruct q as [[[w1 [e|]] s1]| |]; auto. destruct (body (tw_rest s1)) as [[e x]| |]; auto. destruct (tw_timeout s1) as [t'|]; auto.
  destruct (run_tprog a (t' w1 false) (t_with x s1)) as [q|] eqn:R2; [|discriminate]. rewrite (prog_more _ _ F _ _ _ R2). auto.
Qed.
Lemma call_more : forall f w c (s : tw) r, t_call dinit dstep f w c s = Some r -> forall g, (f <= g)%nat -> t_call dinit dstep g w c s = Some r.
Proof.
  induction f as [|f IH]; intros w c s r H g L; [discriminate|]. destruct g as [|g]; [lia|].
  assert (F : finer (t_call dinit dstep f) (t_call (W := W) dinit dstep g)) by (intros w0 d0 s0 r0 H0; apply (IH _ _ _ _ H0); lia).
  assert (FF : forall q, t_flush dstep (t_call dinit dstep f) w s = Some q -> t_flush dstep (t_call dinit dstep g) w s = Some q).
  { intros q. rewrite !flush_timed. destruct (wr_err (tw_rest s)); auto. apply timed_more. exact F. }
  destruct c as [d|p| |lvl| |]; cbn [t_call] in *; auto.
  - unfold t_line in *. destruct (wr_err (tw_rest s)); auto. destruct (run_hooks (tw_hooks s) w d) as [w1 [| |e]]; auto. eapply timed_more; eauto.
  - unfold t_write in *. destruct (wr_err (tw_rest s)); auto. destruct (wr_buf (tw_rest s)); auto.
    destruct (t_flush dstep (t_call dinit dstep f) w s) as [q|] eqn:R; [|discriminate]. rewrite (FF _ eq_refl). exact H.
  - unfold t_zlib in *. destruct (wr_err (tw_rest s)); auto. destruct (wr_zlib_on (tw_rest s)); auto.
    destruct (t_flush dstep (t_call dinit dstep f) w s) as [q|] eqn:R; [|discriminate]. rewrite (FF _ eq_refl). exact H.
Qed.
Lemma finer_call f g : (f <= g)%nat -> finer (t_call dinit dstep f) (t_call (W := W) dinit dstep g).
Proof. intros L w c s r H. exact (call_more _ _ _ _ _ H _ L). Qed.
Lemma goes_back o (x : wr) r : lone x -> sets_timeout o -> goes dinit dstep o x r -> body_of dstep o x = untell r.
Proof.
  intros L Ho G. apply goes_iff in G; [|exact (proj2 L)|exact (proj1 (proj1 L))|exact Ho]. unfold told_t in G. destruct (body_of dstep o x) as [[e y]| |]; try discriminate; cbn in G; injection G as <-; reflexivity.
Qed.
Scheme udoes_ind3 := Induction for udoes Sort Prop
  with utimed_ind3 := Induction for utimed Sort Prop
  with ucalls_ind3 := Induction for ucalls Sort Prop.
Theorem call_all : forall w c (s : tw) o, ucalls dinit dstep w c s o -> fit s -> exists f, t_call dinit dstep f w c s = Some (untell o).
Proof.
  assert (PF : forall f p (s : tw) w e s', fit s -> run_tprog (t_call dinit dstep f) p s = Some (WRet (w, e, s')) -> fit s') by (intros f; apply prog_fit; apply call_fit).
  assert (TF : forall f o w (s : tw) n w' s', sets_timeout o -> fit s -> t_timed (t_call dinit dstep f) (body_of dstep o) w s = Some (WRet (n, w', s')) -> fit s') by (intros f; apply timed_fit; apply call_fit).
  apply (ucalls_ind3 W dst dinit dstep
    (fun p s o _ => fit s -> exists f, run_tprog (t_call dinit dstep f) p s = Some (untell o))
    (fun op w s o _ => sets_timeout op -> fit s -> exists f, t_timed (t_call dinit dstep f) (body_of dstep op) w s = Some (untell o))
    (fun w c s o _ => fit s -> exists f, t_call dinit dstep f w c s = Some (untell o))).
  - intros. now exists 0%nat.
  - intros. now exists 0%nat.
  - intros w c k s n e w' s' o _ I1 _ I2 F. destruct (I1 F) as [f1 H1]. destruct (I2 (call_fit _ _ _ _ _ _ _ F H1)) as [f2 H2]. exists (max f1 f2). cbn [run_tprog].
    rewrite (finer_call f1 (max f1 f2) ltac:(lia) _ _ _ _ H1). cbn [untell]. exact (prog_more _ _ (finer_call f2 (max f1 f2) ltac:(lia)) _ _ _ H2).
  - intros w c k s _ I1 F. destruct (I1 F) as [f H]. exists f. cbn [run_tprog]. now rewrite H.
  - intros k t hs x o _ I1 F. exact (I1 F).
  - intros on e p t hs x o _ I1 F. exact (I1 F).
  - intros t' p t hs x o _ I1 F. exact (I1 F).
  - intros o w hs x r G Ho F. exists 0%nat. unfold t_timed. cbn [tw_timeout tw_rest]. rewrite (goes_back o x r F Ho G). destruct r as [[e y]|]; reflexivity.
  - intros o t w hs x _ I1 Ho F. destruct (I1 F) as [f H]. exists f. unfold t_timed. cbn [tw_timeout]. now rewrite H.
  - intros o t w hs x w1 e t1 hs1 x1 _ I1 Ho F. destruct (I1 F) as [f H]. exists f. pose proof (PF _ _ _ _ _ _ F H) as [[F1 _] _]. cbn in F1. unfold t_timed. cbn [tw_timeout]. rewrite H. cbn [untell].
    unfold t_with, set_error, dress. cbn [tw_timeout tw_hooks tw_rest]. now rewrite F1.
  - intros o t w hs x w1 t1 hs1 x1 _ I1 G Ho F. destruct (I1 F) as [f H]. exists f. pose proof (PF _ _ _ _ _ _ F H) as F1. unfold t_timed. cbn [tw_timeout]. rewrite H. cbn [untell tw_rest].
    now rewrite (goes_back o x1 _ F1 Ho G).
  - intros o t w hs x w1 hs1 x1 e x2 _ I1 G Ho F. destruct (I1 F) as [f H]. exists f. pose proof (PF _ _ _ _ _ _ F H) as F1. unfold t_timed. cbn [tw_timeout]. rewrite H. cbn [untell tw_rest].
    now rewrite (goes_back o x1 _ F1 Ho G).
  - intros o t w hs x w1 t1 hs1 x1 e x2 r _ I1 G _ I2 Ho F. destruct (I1 F) as [f1 H1]. pose proof (PF _ _ _ _ _ _ F H1) as F1. pose proof (goes_back o x1 _ F1 Ho G) as B.
    destruct (I2 (body_lone dstep _ _ _ _ F1 Ho B)) as [f2 H2]. exists (max f1 f2). unfold t_timed. cbn [tw_timeout].
    rewrite (prog_more _ _ (finer_call f1 (max f1 f2) ltac:(lia)) _ _ _ H1). cbn [untell tw_rest tw_timeout]. rewrite B. cbn [untell]. unfold t_with. cbn [tw_timeout tw_hooks].
    rewrite (prog_more _ _ (finer_call f2 (max f1 f2) ltac:(lia)) _ _ _ H2). destruct r as [[[w2 v] s2]|]; reflexivity.
  - intros w c t hs x e He N1 N2 F. exists 1%nat. destruct c; cbn [t_call]; unfold t_line, t_write, t_zlib, t_flush; cbn [tw_rest]; rewrite ?He; try reflexivity; [now elim N1|now elim N2].
  - intros w t hs x r He _ I1 F. destruct (I1 Logic.I F) as [f H]. exists (S f). cbn [t_call]. rewrite flush_timed. cbn [tw_rest]. now rewrite He.
  - intros d w t hs x w' r He V _ I1 F. destruct (I1 Logic.I F) as [f H]. exists (S f). cbn [t_call]. unfold t_line. cbn [tw_rest tw_hooks]. rewrite He. apply verdict_iff in V. now rewrite V.
  - intros d w t hs x w' He V F. exists 1%nat. cbn [t_call]. unfold t_line. cbn [tw_rest tw_hooks]. rewrite He. apply verdict_iff in V. now rewrite V.
  - intros d w t hs x w' e He V [[F1 _] _]. cbn in F1. exists 1%nat. cbn [t_call]. unfold t_line. cbn [tw_rest tw_hooks]. rewrite He. apply verdict_iff in V. rewrite V. cbn [untell]. unfold t_with, set_error, dress. cbn [tw_timeout tw_hooks]. now rewrite F1.
  - intros p w t hs x r He Hb Sn [[F1 _] _]. exists 1%nat. cbn [t_call]. unfold t_write. cbn [tw_rest]. rewrite He, Hb, cur_sent. cbn [tw_rest]. apply sends_iff in Sn; [|exact F1].
    destruct (sent dstep p x) as [[[n e] y]| |]; try discriminate; cbn in Sn; injection Sn as <-; reflexivity.
  - intros p w t hs x n w' t' hs' x' r He Hb _ I1 Sn F. destruct (I1 Logic.I F) as [f H]. pose proof (TF _ OFlush _ _ _ _ _ Logic.I F H) as [[F1 _] _]. exists (S f). cbn [t_call]. unfold t_write. rewrite flush_timed. cbn [tw_rest]. rewrite He.
    destruct (wr_buf x); [now elim Hb|]. rewrite H. cbn [untell]. rewrite cur_sent. cbn [tw_rest]. apply sends_iff in Sn; [|exact F1].
    destruct (sent dstep p x') as [[[n' e] y]| |]; try discriminate; cbn in Sn; injection Sn as <-; reflexivity.
  - intros p w t hs x n e w' s' He Hb _ I1 F. destruct (I1 Logic.I F) as [f H]. exists (S f). cbn [t_call]. unfold t_write. rewrite flush_timed. cbn [tw_rest]. rewrite He. destruct (wr_buf x); [now elim Hb|]. now rewrite H.
  - intros p w t hs x He Hb _ I1 F. destruct (I1 Logic.I F) as [f H]. exists (S f). cbn [t_call]. unfold t_write. rewrite flush_timed. cbn [tw_rest]. rewrite He. destruct (wr_buf x); [now elim Hb|]. now rewrite H.
  - intros lvl w t hs x He Hz F. exists 1%nat. cbn [t_call]. unfold t_zlib. cbn [tw_rest]. now rewrite He, Hz.
  - intros lvl w t hs x n w' t' hs' x' r He Hz _ I1 Z F. destruct (I1 Logic.I F) as [f H]. pose proof (TF _ OFlush _ _ _ _ _ Logic.I F H) as [[F1 _] F3]. exists (S f). cbn [t_call]. unfold t_zlib. rewrite flush_timed. cbn [tw_rest]. rewrite He, Hz, H.
    cbn [untell tw_rest]. apply zips_iff in Z; [|exact F1|exact F3]. destruct (zlib_body dinit lvl x') as [[e y]| |]; try discriminate; cbn in Z; injection Z as <-; reflexivity.
  - intros lvl w t hs x n e w' s' He Hz _ I1 F. destruct (I1 Logic.I F) as [f H]. exists (S f). cbn [t_call]. unfold t_zlib. rewrite flush_timed. cbn [tw_rest]. now rewrite He, Hz, H.
  - intros lvl w t hs x He Hz _ I1 F. destruct (I1 Logic.I F) as [f H]. exists (S f). cbn [t_call]. unfold t_zlib. rewrite flush_timed. cbn [tw_rest]. now rewrite He, Hz, H.
  - intros w t hs x e y E F. exists 1%nat. cbn [t_call tw_rest]. now rewrite E.
  - intros w t hs x E F. exists 1%nat. cbn [t_call tw_rest]. now rewrite E.
  - intros w t hs x e y E F. exists 1%nat. cbn [t_call tw_rest]. now rewrite E.
  - intros w t hs x E F. exists 1%nat. cbn [t_call tw_rest]. now rewrite E.
Qed.
Theorem call_iff w c (s : tw) o : fit s -> ucalls dinit dstep w c s o <-> exists f, forall g, (f <= g)%nat -> t_call dinit dstep g w c s = Some (untell o).
Proof.
  intros F. split.
  - intros U. destruct (call_all _ _ _ _ U F) as [f H]. exists f. exact (call_more _ _ _ _ _ H).
  - intros [f H]. destruct (call_told f w c s _ F (H f (le_n _))) as [_ U]. now destruct o.
Qed.
Theorem call_one w c (s : tw) o o' : fit s -> ucalls dinit dstep w c s o -> ucalls dinit dstep w c s o' -> o = o'.
Proof.
  intros F H K. apply call_iff in H; auto. apply call_iff in K; auto. destruct H as [f H], K as [g K]. specialize (H (max f g) ltac:(lia)). rewrite K in H by lia. destruct o, o'; cbn in H; congruence.
Qed.
End Told.
