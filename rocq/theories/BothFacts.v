(** Proofs about line callbacks and a Timeout callback that call the writer they belong to: the model does what is told by the methods called. *)
From Verif Require Import Base LineReader LineWriter SpecLine SpecWriter WriterReentry SpecWriterReentry LineWriterFacts WriterReentryFacts TimeoutReentry SpecTimeoutReentry TimeoutReentryFacts TimeoutToldFacts BothReentry SpecBothReentry.

Section Told.
Context {W dst : Type} (dinit : Z -> dst) (dstep : dst -> dop -> dst * list bytes).
Notation wr := (writer unit dst).
Notation tw := (@bowriter W dst).
Notation out := (option (wout (nat * option error * W * tw))).
Definition bfit (s : tw) : Prop := lone (bo_rest s).

(** ** Writers without callbacks of their own stay so *)
Section Keep.
Variable again : W -> wcall -> tw -> out.
Hypothesis Ha : forall w c s a w' s', bfit s -> again w c s = Some (WRet (a, w', s')) -> bfit s'.
Lemma bprog_fit : forall p (s : tw) w e s', bfit s -> run_bprog again p s = Some (WRet (w, e, s')) -> bfit s'.
Proof.
  induction p as [w v| |w c k IH|k IH|on er p IH|t p IH|h IHh p IH]; intros s w1 v1 s1 F; cbn [run_bprog].
  - intros R. now injection R as <- <- <-.
  - discriminate.
  - destruct (again w c s) as [[[[a w2] s2]| |]|] eqn:A; try discriminate. apply IH. exact (Ha _ _ _ _ _ _ F A).
  - apply IH. exact F.
  - apply IH. exact F.
  - apply IH. exact F.
  - apply IH. exact F.
Qed.
Lemma bprogs_fit : forall hs (s : tw) w d w' v s', bfit s -> run_bprogs again hs w d s = Some (WRet (w', v, s')) -> bfit s'.
Proof.
  induction hs as [|h hs IH]; intros s w d w' v s' F; cbn [run_bprogs]; [intros R; now injection R as <- <- <-|].
  destruct (run_bprog again (h w d) s) as [[[[w1 [| |e]] s1]| |]|] eqn:R; try discriminate; pose proof (bprog_fit _ _ _ _ _ F R) as F1; [now apply IH|intros E; now injection E as <- <- <-|intros E; now injection E as <- <- <-].
Qed.
Lemma btimed_fit o w (s : tw) n w' s' : sets_timeout o -> bfit s -> b_timed again (body_of dstep o) w s = Some (WRet (n, w', s')) -> bfit s'.
Proof.
  intros Ho F. unfold b_timed. destruct (bo_timeout s) as [t|].
  - destruct (run_bprog again (t w true) s) as [[[[w1 [| |e]] s1]| |]|] eqn:R; try discriminate; pose proof (bprog_fit _ _ _ _ _ F R) as F1.
    3: intros E; injection E as <- <- <-; exact (set_error_lone e _ F1).
    all: destruct (body_of dstep o (bo_rest s1)) as [[e x]| |] eqn:B; try discriminate; pose proof (body_lone dstep _ _ _ _ F1 Ho B) as F2; destruct (bo_timeout s1) as [t'|]; [|discriminate];
      destruct (run_bprog again (t' w1 false) (b_with x s1)) as [[[[w2 v] s2]| |]|] eqn:R2; try discriminate; intros E; injection E as <- <- <-; eapply bprog_fit; [|exact R2]; exact F2.
  - destruct (body_of dstep o (bo_rest s)) as [[e x]| |] eqn:B; try discriminate. intros E. cbn in E. injection E as <- <- <-. exact (body_lone dstep _ _ _ _ F Ho B).
Qed.
End Keep.
Lemma bflush_timed again w (s : tw) : b_flush dstep again w s = match wr_err (bo_rest s) with Some e => Some (WRet (O, Some e, w, s)) | None => b_timed again (body_of dstep OFlush) w s end.
Proof. reflexivity. Qed.
Lemma bcur_sent p w (s : tw) : b_cur dstep p w s = b_plain (fun a => a) w s (sent dstep p (bo_rest s)).
Proof. unfold b_cur, sent. destruct (wr_open (bo_rest s)); reflexivity. Qed.
Lemma bplain_fit {A} (c : A -> nat * option error) w (s : tw) r a w' s' : (forall b y, r = WRet (b, y) -> lone y) -> b_plain c w s r = Some (WRet (a, w', s')) -> bfit s'.
Proof. intros H. destruct r as [[b y]| |]; try discriminate. cbn. intros E. injection E as <- <- <-. exact (H _ _ eq_refl). Qed.
Lemma bcall_fit : forall f w c (s : tw) a w' s', bfit s -> b_call dinit dstep f w c s = Some (WRet (a, w', s')) -> bfit s'.
Proof.
  induction f as [|f IH]; intros w c s a w' s' F; [discriminate|].
  assert (T0 : forall s o w n w' s', bfit s -> sets_timeout o -> b_timed (b_call dinit dstep f) (body_of dstep o) w s = Some (WRet (n, w', s')) -> bfit s').
  { intros s0 o w0 n w0' s0' F0 Ho. apply btimed_fit; auto. }
  assert (T : forall o w n w' s', sets_timeout o -> b_timed (b_call dinit dstep f) (body_of dstep o) w s = Some (WRet (n, w', s')) -> bfit s').
  { intros o w0 n w0' s0' Ho. apply T0; auto. }
  destruct c as [d|p| |lvl| |]; cbn [b_call].
  - unfold b_line. destruct (wr_err (bo_rest s)) as [e|]; [intros E; now injection E as <- <- <-|].
    destruct (run_bprogs (b_call dinit dstep f) (bo_hooks s) w d s) as [[[[w1 [| |e]] s1]| |]|] eqn:R; try discriminate; pose proof (bprogs_fit _ IH _ _ _ _ _ _ _ F R) as F1;
      [apply (T0 s1 (OLine d)); [exact F1|exact Logic.I]|intros E; now injection E as <- <- <-|intros E; injection E as <- <- <-; exact (set_error_lone e _ F1)].
  - unfold b_write. rewrite bflush_timed. destruct (wr_err (bo_rest s)) as [e|]; [intros E; now injection E as <- <- <-|].
    assert (C : forall w s1, bfit s1 -> b_cur dstep p w s1 = Some (WRet (a, w', s')) -> bfit s').
    { intros w0 s1 F1. rewrite bcur_sent. apply bplain_fit. intros b y. exact (sent_lone dstep _ _ _ _ F1). }
    destruct (wr_buf (bo_rest s)); [apply C; exact F|].
    destruct (b_timed _ (body_of dstep OFlush) w s) as [[[[[n [e|]] w1] s1]| |]|] eqn:R; try discriminate; pose proof (T OFlush _ _ _ _ Logic.I R) as F1; [intros E; now injection E as <- <- <-|apply C; exact F1].
  - rewrite bflush_timed. destruct (wr_err (bo_rest s)) as [e|]; [intros E; now injection E as <- <- <-|]. apply (T OFlush). exact Logic.I.
  - unfold b_zlib. rewrite bflush_timed. destruct (wr_err (bo_rest s)) as [e|]; [intros E; now injection E as <- <- <-|]. destruct (wr_zlib_on (bo_rest s)); [intros E; now injection E as <- <- <-|].
    destruct (b_timed _ (body_of dstep OFlush) w s) as [[[[[n [e|]] w1] s1]| |]|] eqn:R; try discriminate; pose proof (T OFlush _ _ _ _ Logic.I R) as F1; [intros E; now injection E as <- <- <-|].
    apply bplain_fit. intros b y. exact (zlib_body_lone dinit _ _ _ _ F1).
  - apply bplain_fit. intros b y E. apply (run_op_lone dinit dstep ODisable (bo_rest s) O b tt y F). cbn [run_op]. now rewrite E.
  - apply bplain_fit. intros b y E. apply (run_op_lone dinit dstep OClose (bo_rest s) O b tt y F). cbn [run_op]. now rewrite E.
Qed.

(** ** The model is told right *)
Section Sound.
Variable again : W -> wcall -> tw -> out.
Hypothesis Hf : forall w c s a w' s', bfit s -> again w c s = Some (WRet (a, w', s')) -> bfit s'.
Hypothesis Ha : forall w c s r, bfit s -> again w c s = Some r -> sane r /\ bcalls dinit dstep w c s (tell r).
Lemma bprog_told : forall p (s : tw) r, bfit s -> run_bprog again p s = Some r -> sane r /\ bdoes dinit dstep p s (tell r).
Proof.
  induction p as [w v| |w c k IH|k IH|on er p IH|t p IH|h IHh p IH]; intros s r F; cbn [run_bprog]; intros H.
  - injection H as <-. split; [exact Logic.I|constructor].
  - injection H as <-. split; [exact Logic.I|constructor].
  - destruct (again w c s) as [[[[a w2] s2]| |]|] eqn:A; try discriminate; destruct (Ha _ _ _ _ F A) as [_ U].
    + destruct (IH _ _ _ _ (Hf _ _ _ _ _ _ F A) H) as [S0 D]. split; [exact S0|]. destruct a as [n e]. eapply bd_call; eauto.
    + injection H as <-. split; [exact Logic.I|]. now apply bd_call_panic.
  - destruct (IH _ _ _ F H) as [S0 D]. split; [exact S0|]. destruct s as [t hs x]. now apply bd_err.
  - destruct s as [t hs x]. destruct (IH (mkBo t hs (marked on er x)) r F H) as [S0 D]. split; [exact S0|]. now apply bd_mark.
  - destruct s as [t0 hs x]. destruct (IH (mkBo t hs x) r F H) as [S0 D]. split; [exact S0|]. now apply bd_set.
  - destruct s as [t0 hs x]. destruct (IH (mkBo t0 (hs ++ [h]) x) r F H) as [S0 D]. split; [exact S0|]. now apply bd_hook.
Qed.
Lemma bprogs_told : forall hs (s : tw) w d r, bfit s -> run_bprogs again hs w d s = Some r -> sane r /\ basked dinit dstep hs w d s (tell r).
Proof.
  induction hs as [|h hs IH]; intros s w d r F; cbn [run_bprogs]; [intros R; injection R as <-; split; [exact Logic.I|constructor]|].
  destruct (run_bprog again (h w d) s) as [q|] eqn:R; [|discriminate]. destruct (bprog_told _ _ _ F R) as [S0 D]. destruct q as [[[w1 v] s1]| |]; [|intros H; injection H as <-; split; [exact Logic.I|]; now apply ba_panic|destruct S0].
  cbn [tell] in D. destruct v as [| |e].
  - intros H. destruct (IH _ _ _ _ (bprog_fit again Hf _ _ _ _ _ F R) H) as [S1 A]. split; [exact S1|]. eapply ba_pass; eauto.
  - intros H. injection H as <-. split; [exact Logic.I|]. apply ba_stop; [exact D|discriminate].
  - intros H. injection H as <-. split; [exact Logic.I|]. apply ba_stop; [exact D|discriminate].
Qed.
Lemma btimed_told o w (s : tw) r : sets_timeout o -> bfit s -> b_timed again (body_of dstep o) w s = Some r -> sane r /\ btimed dinit dstep o w s (tell r).
Proof.
  intros Ho F. destruct s as [[t|] hs x]; unfold b_timed; cbn [bo_timeout bo_rest].
  - destruct (run_bprog again (t w true) (mkBo (Some t) hs x)) as [[[[w1 v] [t1 hs1 x1]]| |]|] eqn:R; try discriminate; destruct (bprog_told _ _ _ F R) as [_ D]; cbn [tell] in D.
    + pose proof (bprog_fit again Hf _ _ _ _ _ F R) as F1. assert (V : (exists e, v = HErr e) \/ forall e, v <> HErr e) by (destruct v; [right|right|left; eauto]; discriminate).
      destruct V as [[e ->] | V].
      * intros H. injection H as <-. split; [exact Logic.I|]. cbn [tell]. unfold b_with. cbn [bo_timeout bo_hooks bo_rest].
        replace (set_error e x1) with (@dress unit unit dst [] (Some e) x1) by (unfold set_error, dress; destruct F1 as [[F1 _] _]; cbn in F1; rewrite F1; reflexivity). now apply bt_refused.
      * cbn [bo_rest bo_timeout]. match goal with |- match v with HPass => ?m | HDrop => _ | HErr _ => _ end = _ -> _ => intros H; assert (H1 : m = Some r) by (destruct v; [exact H|exact H|now elim (V e)]); clear H; revert H1 end.
        destruct (body_of dstep o x1) as [[e x2]| |] eqn:B; try discriminate; pose proof (goes_told dinit dstep o x1 _ F1 Ho B ltac:(discriminate)) as G; cbn [tell] in G.
        -- destruct t1 as [t1|]; [|intros H; injection H as <-; split; [exact Logic.I|]; eapply bt_nil; eauto].
           unfold b_with. cbn [bo_timeout bo_hooks]. destruct (run_bprog again (t1 w1 false) _) as [q|] eqn:R2; [|discriminate].
           destruct (bprog_told _ (mkBo (Some t1) hs1 x2) _ (body_lone dstep _ _ _ _ F1 Ho B) R2) as [S2 D2].
           pose proof (bt_done dinit dstep o t w hs x w1 v t1 hs1 x1 e x2 _ D V G D2) as U.
           destruct q as [[[w2 v2] s2]| |]; intros H; try discriminate; injection H as <-; (split; [exact Logic.I|exact U]).
        -- intros H. injection H as <-. split; [exact Logic.I|]. eapply bt_work; eauto.
    + intros H. injection H as <-. split; [exact Logic.I|]. now apply bt_panic.
  - destruct (body_of dstep o x) as [[e y]| |] eqn:B; try discriminate; pose proof (goes_told dinit dstep o x _ F Ho B ltac:(discriminate)) as G; cbn [tell] in G; cbn [b_plain]; intros H; injection H as <-;
      (split; [exact Logic.I|]); [exact (bt_none dinit dstep o w hs x (Some (e, y)) G)|exact (bt_none dinit dstep o w hs x None G)].
Qed.
End Sound.
Theorem bcall_told : forall f w c (s : tw) r, bfit s -> b_call dinit dstep f w c s = Some r -> sane r /\ bcalls dinit dstep w c s (tell r).
Proof.
  induction f as [|f IH]; intros w c [t hs x] r F; [discriminate|].
  assert (T0 : forall s o w r, bfit s -> sets_timeout o -> b_timed (b_call dinit dstep f) (body_of dstep o) w s = Some r -> sane r /\ btimed dinit dstep o w s (tell r)).
  { intros s0 o w0 r0 F0 Ho. apply btimed_told; auto. apply bcall_fit. }
  assert (T : forall o w r, sets_timeout o -> b_timed (b_call dinit dstep f) (body_of dstep o) w (mkBo t hs x) = Some r -> sane r /\ btimed dinit dstep o w (mkBo t hs x) (tell r)).
  { intros o w0 r0 Ho. apply T0; auto. }
  assert (TF : forall o w n w' s', sets_timeout o -> b_timed (b_call dinit dstep f) (body_of dstep o) w (mkBo t hs x) = Some (WRet (n, w', s')) -> bfit s').
  { intros o w0 n w0' s0' Ho. apply btimed_fit; auto. apply bcall_fit. }
  destruct c as [d|p| |lvl| |]; cbn [b_call].
  - unfold b_line. cbn [bo_rest bo_hooks]. destruct (wr_err x) as [e|] eqn:Ee; [intros H; injection H as <-; split; [exact Logic.I|]; now apply bc_before|].
    destruct (run_bprogs (b_call dinit dstep f) hs w d (mkBo t hs x)) as [q|] eqn:V; [|discriminate]. destruct (bprogs_told _ (bcall_fit f) IH _ _ _ _ _ F V) as [S0 A].
    destruct q as [[[w1 v] s1]| |]; [|intros H; injection H as <-; split; [exact Logic.I|]; now apply bc_line_panic|destruct S0]. pose proof (bprogs_fit _ (bcall_fit f) _ _ _ _ _ _ _ F V) as F1. cbn [tell] in A. destruct v as [| |e].
    + intros H. destruct (T0 s1 (OLine d) w1 r F1 Logic.I H) as [S1 U]. split; [exact S1|]. eapply bc_line; eauto.
    + intros H. injection H as <-. split; [exact Logic.I|]. now apply bc_line_drop.
    + intros H. injection H as <-. split; [exact Logic.I|]. destruct s1 as [t1 hs1 x1]. unfold b_with. cbn [bo_timeout bo_hooks bo_rest tell].
      replace (set_error e x1) with (@dress unit unit dst [] (Some e) x1) by (unfold set_error, dress; destruct F1 as [[F1 _] _]; cbn in F1; rewrite F1; reflexivity). now apply bc_line_error.
  - unfold b_write. rewrite bflush_timed. cbn [bo_rest]. destruct (wr_err x) as [e|] eqn:Ee; [intros H; injection H as <-; split; [exact Logic.I|]; now apply bc_before|].
    assert (C : forall w t1 hs1 x1 r, bfit (mkBo t1 hs1 x1) -> b_cur dstep p w (mkBo t1 hs1 x1) = Some r -> sane r /\ exists q, sends dstep p x1 q /\ tell r = again_n w t1 hs1 q).
    { intros w0 t1 hs1 x1 r0 [[F1 _] _]. rewrite bcur_sent. cbn [bo_rest] in *. pose proof (sends_iff dstep p x1) as SI.
      destruct (sent dstep p x1) as [[[n e] y]| |] eqn:Es; try discriminate; cbn [b_plain]; intros H; injection H as <-; (split; [exact Logic.I|]);
        [exists (Some (n, e, y))|exists None]; (split; [apply SI; [exact F1|reflexivity]|reflexivity]). }
    destruct (wr_buf x) as [|b bs] eqn:Eb.
    + intros H. destruct (C _ _ _ _ _ F H) as (S0 & q & Q1 & Q2). split; [exact S0|]. rewrite Q2. now apply bc_write.
    + assert (N : wr_buf x <> []) by (rewrite Eb; discriminate).
      destruct (b_timed _ (body_of dstep OFlush) w _) as [[[[[n [e|]] w1] [t1 hs1 x1]]| |]|] eqn:R; try discriminate; pose proof (proj2 (T OFlush _ _ Logic.I R)) as U; cbn [tell] in U.
      * intros H. injection H as <-. split; [exact Logic.I|]. now apply bc_write_fails.
      * intros H. destruct (C _ _ _ _ _ (TF OFlush _ _ _ _ Logic.I R) H) as (S0 & q & Q1 & Q2). split; [exact S0|]. rewrite Q2. eapply bc_write_flush; eauto.
      * intros H. injection H as <-. split; [exact Logic.I|]. now apply bc_write_panic.
      * destruct (proj1 (T OFlush _ _ Logic.I R)).
  - rewrite bflush_timed. cbn [bo_rest]. destruct (wr_err x) as [e|] eqn:Ee; [intros H; injection H as <-; split; [exact Logic.I|]; now apply bc_before|].
    intros H. destruct (T OFlush w r Logic.I H) as [S0 U]. split; [exact S0|]. now apply bc_flush.
  - unfold b_zlib. rewrite bflush_timed. cbn [bo_rest]. destruct (wr_err x) as [e|] eqn:Ee; [intros H; injection H as <-; split; [exact Logic.I|]; now apply bc_before|].
    destruct (wr_zlib_on x) eqn:Ez; [intros H; injection H as <-; split; [exact Logic.I|]; now apply bc_zlib_on|].
    destruct (b_timed _ (body_of dstep OFlush) w _) as [[[[[n [e|]] w1] [t1 hs1 x1]]| |]|] eqn:R; try discriminate; pose proof (proj2 (T OFlush _ _ Logic.I R)) as U; cbn [tell] in U.
    + intros H. injection H as <-. split; [exact Logic.I|]. now apply bc_zlib_fails.
    + pose proof (TF OFlush _ _ _ _ Logic.I R) as [[F1 _] F3]. cbn [bo_rest] in *. pose proof (zips_iff dinit dstep lvl x1) as ZI.
      destruct (zlib_body dinit lvl x1) as [[e y]| |] eqn:Es; try discriminate; cbn [b_plain]; intros H; injection H as <-; (split; [exact Logic.I|]).
      * exact (bc_zlib dinit dstep lvl w t hs x n w1 t1 hs1 x1 (Some (e, y)) Ee Ez U (proj2 (ZI _ F1 F3) eq_refl)).
      * exact (bc_zlib dinit dstep lvl w t hs x n w1 t1 hs1 x1 None Ee Ez U (proj2 (ZI _ F1 F3) eq_refl)).
    + intros H. injection H as <-. split; [exact Logic.I|]. now apply bc_zlib_panic.
    + destruct (proj1 (T OFlush _ _ Logic.I R)).
  - cbn [bo_rest]. destruct (disable_zlib dstep x) as [[e y]| |] eqn:E; try discriminate; cbn [b_plain]; intros H; injection H as <-; (split; [exact Logic.I|]); [now apply bc_unzip|now apply bc_unzip_panic].
  - cbn [bo_rest bo_timeout]. destruct (close_writer dstep x) as [[e y]| |] eqn:E; try discriminate; cbn [b_plain]; intros H; injection H as <-; (split; [exact Logic.I|]); [now apply bc_close|now apply bc_close_panic].
Qed.

(** ** More fuel, and all that is told happens *)
Lemma bprog_more a b : finer a b -> forall p (s : tw) r, run_bprog a p s = Some r -> run_bprog b p s = Some r.
Proof.
  intros F. induction p as [w v| |w c k IH|k IH|on er p IH|t p IH|h IHh p IH]; intros s r H; cbn [run_bprog] in *; auto.
  destruct (a w c s) as [q|] eqn:A; [|discriminate]. rewrite (F _ _ _ _ A). destruct q as [[[a0 w2] s2]| |]; auto.
Qed.
Lemma bprogs_more a b : finer a b -> forall hs (s : tw) w d r, run_bprogs a hs w d s = Some r -> run_bprogs b hs w d s = Some r.
Proof.
  intros F. induction hs as [|h hs IH]; intros s w d r; cbn [run_bprogs]; auto. destruct (run_bprog a (h w d) s) as [q|] eqn:R; [|discriminate]. rewrite (bprog_more _ _ F _ _ _ R).
  destruct q as [[[w1 [| |e]] s1]| |]; auto.
Qed.
Lemma btimed_more a b body w (s : tw) r : finer a b -> b_timed a body w s = Some r -> b_timed b body w s = Some r.
Proof.
  intros F. unfold b_timed. destruct (bo_timeout s) as [t|]; auto. destruct (run_bprog a (t w true) s) as [q|] eqn:R; [|discriminate]. rewrite (bprog_more _ _ F _ _ _ R).
  destruct q as [[[w1 [| |e]] s1]| |]; auto; (destruct (body (bo_rest s1)) as [[e x]| |]; auto; destruct (bo_timeout s1) as [t'|]; auto;
  destruct (run_bprog a (t' w1 false) (b_with x s1)) as [q|] eqn:R2; [|discriminate]; rewrite (bprog_more _ _ F _ _ _ R2); auto).
Qed.
Lemma bcall_more : forall f w c (s : tw) r, b_call dinit dstep f w c s = Some r -> forall g, (f <= g)%nat -> b_call dinit dstep g w c s = Some r.
Proof.
  induction f as [|f IH]; intros w c s r H g L; [discriminate|]. destruct g as [|g]; [lia|].
  assert (F : finer (b_call dinit dstep f) (b_call (W := W) dinit dstep g)) by (intros w0 d0 s0 r0 H0; apply (IH _ _ _ _ H0); lia).
  assert (FF : forall q, b_flush dstep (b_call dinit dstep f) w s = Some q -> b_flush dstep (b_call dinit dstep g) w s = Some q).
  { intros q. rewrite !bflush_timed. destruct (wr_err (bo_rest s)); auto. apply btimed_more. exact F. }
  destruct c as [d|p| |lvl| |]; cbn [b_call] in *; auto.
  - unfold b_line in *. destruct (wr_err (bo_rest s)); auto. destruct (run_bprogs (b_call dinit dstep f) (bo_hooks s) w d s) as [q|] eqn:R; [|discriminate]. rewrite (bprogs_more _ _ F _ _ _ _ _ R).
    destruct q as [[[w1 [| |e]] s1]| |]; auto. eapply btimed_more; eauto.
  - unfold b_write in *. destruct (wr_err (bo_rest s)); auto. destruct (wr_buf (bo_rest s)); auto.
    destruct (b_flush dstep (b_call dinit dstep f) w s) as [q|] eqn:R; [|discriminate]. rewrite (FF _ eq_refl). exact H.
  - unfold b_zlib in *. destruct (wr_err (bo_rest s)); auto. destruct (wr_zlib_on (bo_rest s)); auto.
    destruct (b_flush dstep (b_call dinit dstep f) w s) as [q|] eqn:R; [|discriminate]. rewrite (FF _ eq_refl). exact H.
Qed.
Lemma bfiner_call f g : (f <= g)%nat -> finer (b_call dinit dstep f) (b_call (W := W) dinit dstep g).
Proof. intros L w c s r H. exact (bcall_more _ _ _ _ _ H _ L). Qed.
Scheme bdoes_ind4 := Induction for bdoes Sort Prop
  with basked_ind4 := Induction for basked Sort Prop
  with btimed_ind4 := Induction for btimed Sort Prop
  with bcalls_ind4 := Induction for bcalls Sort Prop.
Theorem bcall_all : forall w c (s : tw) o, bcalls dinit dstep w c s o -> bfit s -> exists f, b_call dinit dstep f w c s = Some (untell o).
Proof.
  assert (PF : forall f p (s : tw) w e s', bfit s -> run_bprog (b_call dinit dstep f) p s = Some (WRet (w, e, s')) -> bfit s') by (intros f; apply bprog_fit; apply bcall_fit).
  assert (QF : forall f hs (s : tw) w d w' v s', bfit s -> run_bprogs (b_call dinit dstep f) hs w d s = Some (WRet (w', v, s')) -> bfit s') by (intros f; apply bprogs_fit; apply bcall_fit).
  assert (TF : forall f o w (s : tw) n w' s', sets_timeout o -> bfit s -> b_timed (b_call dinit dstep f) (body_of dstep o) w s = Some (WRet (n, w', s')) -> bfit s') by (intros f; apply btimed_fit; apply bcall_fit).
  apply (bcalls_ind4 W dst dinit dstep
    (fun p s o _ => bfit s -> exists f, run_bprog (b_call dinit dstep f) p s = Some (untell o))
    (fun hs w d s o _ => bfit s -> exists f, run_bprogs (b_call dinit dstep f) hs w d s = Some (untell o))
    (fun op w s o _ => sets_timeout op -> bfit s -> exists f, b_timed (b_call dinit dstep f) (body_of dstep op) w s = Some (untell o))
    (fun w c s o _ => bfit s -> exists f, b_call dinit dstep f w c s = Some (untell o))).
  - intros. now exists 0%nat.
  - intros. now exists 0%nat.
  - intros w c k s n e w' s' o _ I1 _ I2 F. destruct (I1 F) as [f1 H1]. destruct (I2 (bcall_fit _ _ _ _ _ _ _ F H1)) as [f2 H2]. exists (max f1 f2). cbn [run_bprog].
    rewrite (bfiner_call f1 (max f1 f2) ltac:(lia) _ _ _ _ H1). cbn [untell]. exact (bprog_more _ _ (bfiner_call f2 (max f1 f2) ltac:(lia)) _ _ _ H2).
  - intros w c k s _ I1 F. destruct (I1 F) as [f H]. exists f. cbn [run_bprog]. now rewrite H.
  - intros k t hs x o _ I1 F. exact (I1 F).
  - intros on e p t hs x o _ I1 F. exact (I1 F).
  - intros t' p t hs x o _ I1 F. exact (I1 F).
  - intros h p t hs x o _ I1 F. exact (I1 F).
  - intros. now exists 0%nat.
  - intros h hs w d s w1 s1 o _ I1 _ I2 F. destruct (I1 F) as [f1 H1]. destruct (I2 (PF _ _ _ _ _ _ F H1)) as [f2 H2]. exists (max f1 f2). cbn [run_bprogs].
    rewrite (bprog_more _ _ (bfiner_call f1 (max f1 f2) ltac:(lia)) _ _ _ H1). cbn [untell]. exact (bprogs_more _ _ (bfiner_call f2 (max f1 f2) ltac:(lia)) _ _ _ _ _ H2).
  - intros h hs w d s w1 v s1 _ I1 N F. destruct (I1 F) as [f H]. exists f. cbn [run_bprogs]. rewrite H. cbn [untell]. destruct v; [now elim N|reflexivity|reflexivity].
  - intros h hs w d s _ I1 F. destruct (I1 F) as [f H]. exists f. cbn [run_bprogs]. now rewrite H.
  - intros o w hs x r G Ho F. exists 0%nat. unfold b_timed. cbn [bo_timeout bo_rest]. rewrite (goes_back dinit dstep o x r F Ho G). destruct r as [[e y]|]; reflexivity.
  - intros o t w hs x _ I1 Ho F. destruct (I1 F) as [f H]. exists f. unfold b_timed. cbn [bo_timeout]. now rewrite H.
  - intros o t w hs x w1 e t1 hs1 x1 _ I1 Ho F. destruct (I1 F) as [f H]. exists f. pose proof (PF _ _ _ _ _ _ F H) as [[F1 _] _]. cbn in F1. unfold b_timed. cbn [bo_timeout]. rewrite H. cbn [untell].
    unfold b_with, set_error, dress. cbn [bo_timeout bo_hooks bo_rest]. now rewrite F1.
  - intros o t w hs x w1 v t1 hs1 x1 _ I1 V G Ho F. destruct (I1 F) as [f H]. exists f. pose proof (PF _ _ _ _ _ _ F H) as F1. unfold b_timed. cbn [bo_timeout]. rewrite H. cbn [untell bo_rest].
    rewrite (goes_back dinit dstep o x1 _ F1 Ho G). destruct v as [| |er]; [reflexivity|reflexivity|now elim (V er)].
  - intros o t w hs x w1 v hs1 x1 e x2 _ I1 V G Ho F. destruct (I1 F) as [f H]. exists f. pose proof (PF _ _ _ _ _ _ F H) as F1. unfold b_timed. cbn [bo_timeout]. rewrite H. cbn [untell bo_rest].
    rewrite (goes_back dinit dstep o x1 _ F1 Ho G). destruct v as [| |er]; [reflexivity|reflexivity|now elim (V er)].
  - intros o t w hs x w1 v t1 hs1 x1 e x2 r _ I1 V G _ I2 Ho F. destruct (I1 F) as [f1 H1]. pose proof (PF _ _ _ _ _ _ F H1) as F1. pose proof (goes_back dinit dstep o x1 _ F1 Ho G) as B.
    destruct (I2 (body_lone dstep _ _ _ _ F1 Ho B)) as [f2 H2]. exists (max f1 f2). unfold b_timed. cbn [bo_timeout].
    rewrite (bprog_more _ _ (bfiner_call f1 (max f1 f2) ltac:(lia)) _ _ _ H1). cbn [untell bo_rest bo_timeout]. rewrite B. cbn [untell]. unfold b_with. cbn [bo_timeout bo_hooks].
    rewrite (bprog_more _ _ (bfiner_call f2 (max f1 f2) ltac:(lia)) _ _ _ H2). destruct v as [| |er]; [| |now elim (V er)]; destruct r as [[[w2 v2] s2]|]; reflexivity.
  - intros w c t hs x e He N1 N2 F. exists 1%nat. destruct c; cbn [b_call]; unfold b_line, b_write, b_zlib, b_flush; cbn [bo_rest]; rewrite ?He; try reflexivity; [now elim N1|now elim N2].
  - intros w t hs x r He _ I1 F. destruct (I1 Logic.I F) as [f H]. exists (S f). cbn [b_call]. rewrite bflush_timed. cbn [bo_rest]. now rewrite He.
  - intros d w t hs x w' s' r He _ I1 _ I2 F. destruct (I1 F) as [f1 H1]. destruct (I2 Logic.I (QF _ _ _ _ _ _ _ _ F H1)) as [f2 H2]. exists (S (max f1 f2)). cbn [b_call]. unfold b_line. cbn [bo_rest bo_hooks]. rewrite He.
    rewrite (bprogs_more _ _ (bfiner_call f1 (max f1 f2) ltac:(lia)) _ _ _ _ _ H1). cbn [untell]. exact (btimed_more _ _ _ _ _ _ (bfiner_call f2 (max f1 f2) ltac:(lia)) H2).
  - intros d w t hs x w' s' He _ I1 F. destruct (I1 F) as [f H]. exists (S f). cbn [b_call]. unfold b_line. cbn [bo_rest bo_hooks]. rewrite He, H. reflexivity.
  - intros d w t hs x w' e t' hs' x' He _ I1 F. destruct (I1 F) as [f H]. pose proof (QF _ _ _ _ _ _ _ _ F H) as [[F1 _] _]. cbn in F1. exists (S f). cbn [b_call]. unfold b_line. cbn [bo_rest bo_hooks]. rewrite He, H. cbn [untell]. unfold b_with, set_error, dress. cbn [bo_timeout bo_hooks bo_rest]. now rewrite F1.
  - intros d w t hs x He _ I1 F. destruct (I1 F) as [f H]. exists (S f). cbn [b_call]. unfold b_line. cbn [bo_rest bo_hooks]. rewrite He, H. reflexivity.
  - intros p w t hs x r He Hb Sn [[F1 _] _]. exists 1%nat. cbn [b_call]. unfold b_write. cbn [bo_rest]. rewrite He, Hb, bcur_sent. cbn [bo_rest]. apply sends_iff in Sn; [|exact F1].
    destruct (sent dstep p x) as [[[n e] y]| |]; try discriminate; cbn in Sn; injection Sn as <-; reflexivity.
  - intros p w t hs x n w' t' hs' x' r He Hb _ I1 Sn F. destruct (I1 Logic.I F) as [f H]. pose proof (TF _ OFlush _ _ _ _ _ Logic.I F H) as [[F1 _] _]. exists (S f). cbn [b_call]. unfold b_write. rewrite bflush_timed. cbn [bo_rest]. rewrite He.
    destruct (wr_buf x); [now elim Hb|]. rewrite H. cbn [untell]. rewrite bcur_sent. cbn [bo_rest]. apply sends_iff in Sn; [|exact F1].
    destruct (sent dstep p x') as [[[n' e] y]| |]; try discriminate; cbn in Sn; injection Sn as <-; reflexivity.
  - intros p w t hs x n e w' s' He Hb _ I1 F. destruct (I1 Logic.I F) as [f H]. exists (S f). cbn [b_call]. unfold b_write. rewrite bflush_timed. cbn [bo_rest]. rewrite He. destruct (wr_buf x); [now elim Hb|]. now rewrite H.
  - intros p w t hs x He Hb _ I1 F. destruct (I1 Logic.I F) as [f H]. exists (S f). cbn [b_call]. unfold b_write. rewrite bflush_timed. cbn [bo_rest]. rewrite He. destruct (wr_buf x); [now elim Hb|]. now rewrite H.
  - intros lvl w t hs x He Hz F. exists 1%nat. cbn [b_call]. unfold b_zlib. cbn [bo_rest]. now rewrite He, Hz.
  - intros lvl w t hs x n w' t' hs' x' r He Hz _ I1 Z F. destruct (I1 Logic.I F) as [f H]. pose proof (TF _ OFlush _ _ _ _ _ Logic.I F H) as [[F1 _] F3]. exists (S f). cbn [b_call]. unfold b_zlib. rewrite bflush_timed. cbn [bo_rest]. rewrite He, Hz, H.
    cbn [untell bo_rest]. apply zips_iff in Z; [|exact F1|exact F3]. destruct (zlib_body dinit lvl x') as [[e y]| |]; try discriminate; cbn in Z; injection Z as <-; reflexivity.
  - intros lvl w t hs x n e w' s' He Hz _ I1 F. destruct (I1 Logic.I F) as [f H]. exists (S f). cbn [b_call]. unfold b_zlib. rewrite bflush_timed. cbn [bo_rest]. now rewrite He, Hz, H.
  - intros lvl w t hs x He Hz _ I1 F. destruct (I1 Logic.I F) as [f H]. exists (S f). cbn [b_call]. unfold b_zlib. rewrite bflush_timed. cbn [bo_rest]. now rewrite He, Hz, H.
  - intros w t hs x e y E F. exists 1%nat. cbn [b_call bo_rest]. now rewrite E.
  - intros w t hs x E F. exists 1%nat. cbn [b_call bo_rest]. now rewrite E.
  - intros w t hs x e y E F. exists 1%nat. cbn [b_call bo_rest]. now rewrite E.
  - intros w t hs x E F. exists 1%nat. cbn [b_call bo_rest]. now rewrite E.
Qed.
Theorem bcall_iff w c (s : tw) o : bfit s -> bcalls dinit dstep w c s o <-> exists f, forall g, (f <= g)%nat -> b_call dinit dstep g w c s = Some (untell o).
Proof.
  intros F. split.
  - intros U. destruct (bcall_all _ _ _ _ U F) as [f H]. exists f. exact (bcall_more _ _ _ _ _ H).
  - intros [f H]. destruct (bcall_told f w c s _ F (H f (le_n _))) as [_ U]. now destruct o.
Qed.
Theorem bcall_one w c (s : tw) o o' : bfit s -> bcalls dinit dstep w c s o -> bcalls dinit dstep w c s o' -> o = o'.
Proof.
  intros F H K. apply bcall_iff in H; auto. apply bcall_iff in K; auto. destruct H as [f H], K as [g K]. specialize (H (max f g) ltac:(lia)). rewrite K in H by lia. destruct o, o'; cbn in H; congruence.
Qed.

(** ** Errors stay *)
Definition bstays (e : error) (r : out) : Prop := match r with Some (WRet (_, _, s)) => wr_err (bo_rest s) = Some e | _ => True end.
Lemma bcall_stays f w c (s : tw) e : wr_err (bo_rest s) = Some e -> bstays e (b_call dinit dstep f w c s).
Proof.
  intros E. destruct f as [|f]; [exact Logic.I|]. destruct c as [d|p| |lvl| |]; cbn [b_call]; unfold b_line, b_write, b_flush, b_zlib; rewrite ?E; try exact E.
  - unfold disable_zlib. rewrite E. exact E.
  - pose proof (call_stays dinit dstep (S f) tt CClose (mkTwriter None [] (bo_rest s)) e E) as C. cbn [t_call tw_rest] in C. cbn [bo_rest].
    destruct (close_writer dstep (bo_rest s)) as [[e1 y]| |]; exact C || exact Logic.I.
Qed.
Lemma bprog_stays f e : forall p (s : tw) w v s', wr_err (bo_rest s) = Some e -> run_bprog (b_call dinit dstep f) p s = Some (WRet (w, v, s')) -> wr_err (bo_rest s') = Some e.
Proof.
  induction p as [w v| |w c k IH|k IH|on er p IH|t p IH|h IHh p IH]; intros s w1 v1 s1 E; cbn [run_bprog].
  - intros R. now injection R as <- <- <-.
  - discriminate.
  - pose proof (bcall_stays f w c s e E) as C. destruct (b_call dinit dstep f w c s) as [[[[a w2] s2]| |]|]; try discriminate. destruct a as [n er]. exact (IH _ _ _ _ _ _ C).
  - apply IH. exact E.
  - apply IH. exact E.
  - apply IH. exact E.
  - apply IH. exact E.
Qed.
Lemma body_err o (x : wr) e y : sets_timeout o -> body_of dstep o x = WRet (Some e, y) -> wr_err y = Some e.
Proof.
  intros Ho. destruct o as [d|p| |lvl| |]; try contradiction; cbn [body_of].
  - unfold line_body. destruct (wr_open x); [|discriminate]. destruct (bw_write dstep d x) as [[[e2|] z]| |]; try discriminate. cbn. intros R. now injection R as <- <-.
  - unfold flush_body. destruct (wr_open x); [|discriminate]. destruct (bw_flush dstep x) as [[[e2|] z]| |]; try discriminate; cbn [checked]; [intros R; now injection R as <- <-|].
    destruct (wr_zlib_on z); [|discriminate]. destruct (zlib_do dstep DFlush z) as [[[e2|] z2]| |]; try discriminate. cbn. intros R. now injection R as <- <-.
Qed.
Lemma btimed_sticky f o w (s : tw) n e w' s' : sets_timeout o -> b_timed (b_call dinit dstep f) (body_of dstep o) w s = Some (WRet (n, Some e, w', s')) -> wr_err (bo_rest s') = Some e.
Proof.
  intros Ho. unfold b_timed. destruct (bo_timeout s) as [t|].
  - destruct (run_bprog _ (t w true) s) as [[[[w1 [| |e1]] s1]| |]|]; try discriminate; [| |intros E; now injection E as <- <- <- <-].
    all: destruct (body_of dstep o (bo_rest s1)) as [[e2 x]| |] eqn:B; try discriminate; destruct (bo_timeout s1) as [t'|]; [|discriminate];
      destruct (run_bprog _ (t' w1 false) (b_with x s1)) as [[[[w2 v2] s2]| |]|] eqn:R; try discriminate; intros E; injection E as <- -> <- <-;
      apply bprog_stays with (e := e) in R; [exact R|]; exact (body_err o _ _ _ Ho B).
  - destruct (body_of dstep o (bo_rest s)) as [[e2 x]| |] eqn:B; try discriminate. cbn. intros E. injection E as <- -> <- <-. exact (body_err o _ _ _ Ho B).
Qed.
Theorem bcall_sticky f w c (s : tw) n e w' s' : match c with CLine _ | CFlush => True | _ => False end ->
  b_call dinit dstep f w c s = Some (WRet (n, Some e, w', s')) -> wr_err (bo_rest s') = Some e.
Proof.
  intros Hc. destruct f as [|f]; [discriminate|]. destruct c as [d|p| |lvl| |]; try contradiction; cbn [b_call].
  - unfold b_line. destruct (wr_err (bo_rest s)) as [e1|] eqn:E; [intros R; injection R as <- <- <- <-; exact E|].
    destruct (run_bprogs _ (bo_hooks s) w d s) as [[[[w1 [| |e1]] s1]| |]|]; try discriminate; [|intros R; now injection R as <- <- <- <-].
    apply (btimed_sticky f (OLine d)). exact Logic.I.
  - unfold b_flush. destruct (wr_err (bo_rest s)) as [e1|] eqn:E; [intros R; injection R as <- <- <- <-; exact E|]. apply (btimed_sticky f OFlush). exact Logic.I.
Qed.

(** ** Line callbacks that call nothing: C149 *)
Definition wide {A} (r : option (wout (A * @twriter W dst))) : option (wout (A * tw)) :=
  match r with Some (WRet (a, s)) => Some (WRet (a, widen s)) | Some WPan => Some WPan | Some WStuck => Some WStuck | None => None end.
Definition wide_v (r : option (wout (W * option error * @twriter W dst))) : option (wout (W * hook_res * tw)) :=
  match r with Some (WRet (w, e, s)) => Some (WRet (w, as_verdict e, widen s)) | Some WPan => Some WPan | Some WStuck => Some WStuck | None => None end.
Lemma mute_hooks again hs w d (s : tw) : run_bprogs again (map mute hs) w d s = let '(w', v) := run_hooks hs w d in Some (WRet (w', v, s)).
Proof.
  revert w s. induction hs as [|h hs IH]; intros w s; cbn [map run_bprogs run_hooks]; [reflexivity|]. unfold mute at 1. destruct (h w d) as [w1 [| |e]]; cbn [run_bprog]; auto.
Qed.
Lemma plain_wide {A} (c : A -> nat * option error) w (s : @twriter W dst) r : b_plain c w (widen s) r = wide (t_plain c w s r).
Proof. destruct r as [[a x]| |]; reflexivity. Qed.
Section Wide.
Variable a : W -> wcall -> tw -> out.
Variable b : W -> wcall -> @twriter W dst -> option (wout (nat * option error * W * @twriter W dst)).
Hypothesis Hab : forall w c s, a w c (widen s) = wide (b w c s).
Lemma prog_wide : forall p s, run_bprog a (as_both p) (widen s) = wide_v (run_tprog b p s).
Proof.
  induction p as [w v| |w c k IH|k IH|on er p IH|t p IH]; intros s; cbn [as_both run_bprog run_tprog]; auto.
  - rewrite Hab. destruct (b w c s) as [[[[x w2] s2]| |]|]; cbn [wide]; auto.
  - rewrite <- IH. reflexivity.
  - rewrite <- IH. reflexivity.
Qed.
Lemma timed_wide body w s : b_timed a body w (widen s) = wide (t_timed b body w s).
Proof.
  destruct s as [[t|] hs x]; unfold b_timed, t_timed.
  - pose proof (prog_wide (t w true) (mkTwriter (Some t) hs x)) as P. unfold widen at 1 in P. unfold widen. cbn [bo_timeout bo_hooks bo_rest tw_timeout tw_hooks tw_rest] in *. rewrite P.
    destruct (run_tprog b (t w true) _) as [[[[w1 [e|]] [t1 hs1 x1]]| |]|]; cbn [wide_v as_verdict]; auto.
    unfold widen at 1 2 3. cbn [bo_timeout bo_hooks bo_rest tw_timeout tw_hooks tw_rest]. destruct (body x1) as [[e y]| |]; auto. destruct t1 as [t1|]; auto.
    pose proof (prog_wide (t1 w1 false) (mkTwriter (Some t1) hs1 y)) as P2. unfold widen at 1 in P2. cbn [tw_timeout tw_hooks tw_rest] in P2. unfold b_with, t_with. cbn [bo_timeout bo_hooks tw_timeout tw_hooks]. rewrite P2.
    destruct (run_tprog b (t1 w1 false) _) as [[[[w2 v2] s2]| |]|]; auto.
  - cbn [widen bo_timeout tw_timeout]. exact (plain_wide _ w (mkTwriter None hs x) (body x)).
Qed.
Lemma flush_wide w s : b_flush dstep a w (widen s) = wide (t_flush dstep b w s).
Proof. unfold b_flush, t_flush. cbn [widen bo_rest]. destruct (wr_err (tw_rest s)); auto. exact (timed_wide _ w s). Qed.
Lemma cur_wide p w s : b_cur dstep p w (widen s) = wide (t_cur dstep p w s).
Proof. unfold b_cur, t_cur. cbn [widen bo_rest]. destruct (wr_open (tw_rest s)); auto. exact (plain_wide _ w s _). Qed.
End Wide.
Theorem call_wide : forall f w c s, b_call dinit dstep f w c (widen s) = wide (t_call dinit dstep f w c s).
Proof.
  induction f as [|f IH]; intros w c s; [reflexivity|]. destruct c as [d|p| |lvl| |]; cbn [b_call t_call].
  - unfold b_line, t_line. cbn [widen bo_rest bo_hooks]. destruct (wr_err (tw_rest s)); auto. rewrite mute_hooks. destruct (run_hooks (tw_hooks s) w d) as [w1 [| |e]]; auto. exact (timed_wide _ _ IH _ w1 s).
  - unfold b_write, t_write. cbn [widen bo_rest]. destruct (wr_err (tw_rest s)); auto. destruct (wr_buf (tw_rest s)); [exact (cur_wide p w s)|].
    fold (widen s). rewrite (flush_wide _ _ IH). destruct (t_flush dstep _ w s) as [[[[[n [e|]] w1] s1]| |]|]; auto. exact (cur_wide p w1 s1).
  - exact (flush_wide _ _ IH w s).
  - unfold b_zlib, t_zlib. cbn [widen bo_rest]. destruct (wr_err (tw_rest s)); auto. destruct (wr_zlib_on (tw_rest s)); auto.
    fold (widen s). rewrite (flush_wide _ _ IH). destruct (t_flush dstep _ w s) as [[[[[n [e|]] w1] s1]| |]|]; auto. exact (plain_wide _ w1 s1 _).
  - exact (plain_wide _ w s _).
  - exact (plain_wide _ w (mkTwriter (tw_timeout s) [] (tw_rest s)) _).
Qed.

(** ** No Timeout callback: C146 *)
Lemma none_flush again (w : W) hs (x : wr) : wr_timeout x = false -> (wr_err x = None -> wr_open x = true) ->
  b_flush dstep again w (mkBo None hs x) = b_plain (fun e => (O, e)) w (mkBo None hs x) (flush dstep x).
Proof.
  intros Ht O. unfold b_flush, flush. cbn [bo_rest]. destruct (wr_err x) as [e|] eqn:E; [reflexivity|]. unfold b_timed. cbn [bo_timeout bo_rest]. unfold timed. rewrite Ht, flush_body_open by auto. reflexivity.
Qed.
Lemma none_call f (w : W) o hs (x : wr) : match o with OLine _ => False | _ => True end -> wr_timeout x = false -> (wr_err x = None -> wr_open x = true) ->
  b_call dinit dstep (S f) w (as_call o) (mkBo None hs x) =
  match run_op dinit dstep tt o x with
  | WRet (n, e, _, y) => Some (WRet (n, e, w, mkBo None (match o with OClose => [] | _ => hs end) y))
  | WPan => Some WPan
  | WStuck => None
  end.
Proof.
  intros No Ht O. destruct o as [d|p| |lvl| |]; [contradiction| | | | |]; cbn [as_call b_call run_op].
  - unfold b_write, write. cbn [bo_rest]. destruct (wr_err x) as [e|] eqn:E; [reflexivity|].
    assert (C : forall y : wr, wr_open y = true -> b_cur dstep p w (mkBo None hs y) =
       match (match cur_write dstep p y with WRet (n, e, w') => WRet (n, e, tt, w') | WPan => WPan | WStuck => WStuck end) with
       | WRet (n, e, _, y) => Some (WRet (n, e, w, mkBo None hs y)) | WPan => Some WPan | WStuck => None end).
    { intros y Hy. unfold b_cur. cbn [bo_rest]. rewrite Hy. destruct (cur_write dstep p y) as [[[n e] z]| |]; reflexivity. }
    destruct (wr_buf x) as [|b0 bs]; [apply C; auto|]. rewrite none_flush by (rewrite ?E; auto). destruct (flush dstep x) as [[[e|] y]| |] eqn:Ef; try reflexivity.
    cbn [b_plain b_with bo_timeout bo_hooks]. apply C. apply flush_open in Ef. rewrite Ef. auto.
  - rewrite none_flush by auto. destruct (flush dstep x) as [[e y]| |]; reflexivity.
  - unfold b_zlib, enable_zlib_level. cbn [bo_rest]. destruct (wr_err x) as [e|] eqn:E; [reflexivity|].
    destruct (wr_zlib_on x); [reflexivity|]. rewrite none_flush by (rewrite ?E; auto). destruct (flush dstep x) as [[[e|] y]| |] eqn:Ef; try reflexivity.
    cbn [b_plain b_with bo_timeout bo_hooks bo_rest]. apply flush_open in Ef. unfold zlib_body. cbv zeta. destruct (_ && _)%bool; [reflexivity|].
    cbn [wr_open with_zmode]. rewrite Ef, O by reflexivity. reflexivity.
  - cbn [bo_rest]. destruct (disable_zlib dstep x) as [[e y]| |]; reflexivity.
  - cbn [bo_rest bo_timeout]. destruct (close_writer dstep x) as [[e y]| |]; reflexivity.
Qed.
Section Lines.
Variable w0 : W.
Notation U := (@untimed W dst w0).
Definition un {A} (r : wout (A * @lwriter W dst)) : wout (A * tw) := match r with WRet (a, s) => WRet (a, U s) | WPan => WPan | WStuck => WStuck end.
Definition un_n (r : wout (option error * W * @lwriter W dst)) : wout (nat * option error * W * tw) := match r with WRet (e, w, s) => WRet (O, e, w, U s) | WPan => WPan | WStuck => WStuck end.
Section Run.
Variable a : W -> bytes -> @lwriter W dst -> option (wout (option error * W * @lwriter W dst)).
Variable f : nat.
Hypothesis Ha : forall w d s r, lone (lw_rest s) -> a w d s = Some r -> b_call dinit dstep (S f) w (CLine d) (U s) = Some (un_n r).
Lemma prog_un : forall p s r, lone (lw_rest s) -> run_wprog dinit dstep a p s = Some r -> run_bprog (b_call dinit dstep (S f)) (of_line w0 p) (U s) = Some (un r).
Proof.
  assert (N : forall o hs (x : wr), match o with OLine _ => False | _ => True end -> lone x -> b_call dinit dstep (S f) w0 (as_call o) (mkBo None hs x) =
    match run_op dinit dstep tt o x with WRet (n, e, _, y) => Some (WRet (n, e, w0, mkBo None (match o with OClose => [] | _ => hs end) y)) | WPan => Some WPan | WStuck => None end).
  { intros o hs x No [[_ L2] L3]. now apply none_call. }
  assert (L : forall o (x : wr) n e u y, lone x -> run_op dinit dstep tt o x = WRet (n, e, u, y) -> lone y) by (intros; eapply run_op_lone; eauto).
  induction p as [w v| |w d k IH|d k IH|k IH|lvl k IH|k IH|k IH|h IHh q IH|k IH]; intros [hs x] r F; cbn [run_wprog of_line run_bprog]; unfold w_after; cbn [lw_rest lw_hooks] in *.
  - intros H. now injection H as <-.
  - intros H. now injection H as <-.
  - destruct (a w d (mkLwriter hs x)) as [[[[e w1] s1]| |]|] eqn:A; try discriminate; pose proof (Ha _ _ (mkLwriter hs x) _ F A) as B; rewrite B; cbn [un_n]; [|intros H; now injection H as <-].
    apply IH. exact (bcall_fit _ _ _ _ _ _ _ (F : bfit (U (mkLwriter hs x))) B).
  - unfold untimed at 1. cbn [lw_rest lw_hooks]. rewrite (N (OWrite d) _ x Logic.I F). cbn [run_op]. pose proof (L (OWrite d) x) as Lx. cbn [run_op] in Lx.
    destruct (write dstep d x) as [[[n e] y]| |]; [|intros H; now injection H as <-|discriminate]. exact (IH (n, e) (mkLwriter hs y) r (Lx _ _ _ _ F eq_refl)).
  - unfold untimed at 1. cbn [lw_rest lw_hooks]. rewrite (N OFlush _ x Logic.I F). cbn [run_op]. pose proof (L OFlush x) as Lx. cbn [run_op] in Lx.
    destruct (flush dstep x) as [[e y]| |]; [|intros H; now injection H as <-|discriminate]. exact (IH e (mkLwriter hs y) r (Lx _ _ _ _ F eq_refl)).
  - unfold untimed at 1. cbn [lw_rest lw_hooks]. rewrite (N (OEnable lvl) _ x Logic.I F). cbn [run_op]. pose proof (L (OEnable lvl) x) as Lx. cbn [run_op] in Lx.
    destruct (enable_zlib_level dinit dstep lvl x) as [[e y]| |]; [|intros H; now injection H as <-|discriminate]. exact (IH e (mkLwriter hs y) r (Lx _ _ _ _ F eq_refl)).
  - unfold untimed at 1. cbn [lw_rest lw_hooks]. rewrite (N ODisable _ x Logic.I F). cbn [run_op]. pose proof (L ODisable x) as Lx. cbn [run_op] in Lx.
    destruct (disable_zlib dstep x) as [[e y]| |]; [|intros H; now injection H as <-|discriminate]. exact (IH e (mkLwriter hs y) r (Lx _ _ _ _ F eq_refl)).
  - apply IH. exact F.
  - intros H. rewrite <- (IH (mkLwriter (hs ++ [h]) x) r F H). unfold untimed. cbn [lw_rest lw_hooks bo_timeout bo_hooks bo_rest]. now rewrite map_app.
  - unfold untimed at 1. cbn [lw_rest lw_hooks]. rewrite (N OClose _ x Logic.I F). cbn [run_op]. pose proof (L OClose x) as Lx. cbn [run_op] in Lx.
    destruct (close_writer dstep x) as [[e y]| |]; [|intros H; now injection H as <-|discriminate]. exact (IH e (mkLwriter [] y) r (Lx _ _ _ _ F eq_refl)).
Qed.
Lemma progs_un d : forall hs w s r, lone (lw_rest s) -> run_wprogs dinit dstep a hs w d s = Some r -> run_bprogs (b_call dinit dstep (S f)) (map (fun h w d => of_line w0 (h w d)) hs) w d (U s) = Some (un r).
Proof.
  induction hs as [|h hs IH]; intros w s r F; cbn [run_wprogs map run_bprogs]; [intros H; now injection H as <-|].
  destruct (run_wprog dinit dstep a (h w d) s) as [q|] eqn:R; [|discriminate]. pose proof (prog_un _ _ _ F R) as B. rewrite B. destruct q as [[[w1 [| |e]] s1]| |]; cbn [un]; try (intros H; now injection H as <-).
  apply IH. exact (bprog_fit _ (bcall_fit (S f)) _ _ _ _ _ (F : bfit (U s)) B).
Qed.
End Run.
Theorem line_un : forall f w d s r, lone (lw_rest s) -> re_write dinit dstep f w d s = Some r -> b_call dinit dstep (S f) w (CLine d) (U s) = Some (un_n r).
Proof.
  induction f as [|f IH]; intros w d s r F; [discriminate|]. remember (S f) as g eqn:Eg. cbn [b_call]. subst g. cbn [re_write]. unfold b_line. change (bo_rest (U s)) with (lw_rest s). destruct (wr_err (lw_rest s)) as [e|]; [intros H; now injection H as <-|].
  destruct (run_wprogs dinit dstep (re_write dinit dstep f) (lw_hooks s) w d s) as [q|] eqn:R; [|discriminate]. pose proof (progs_un _ f IH d _ _ _ _ F R) as B. change (bo_hooks (U s)) with (map (fun h w d => of_line w0 (h w d)) (lw_hooks s)). rewrite B.
  destruct q as [[[w1 [| |e]] s1]| |]; cbn [un]; try (intros H; now injection H as <-); try discriminate.
  pose proof (bprogs_fit _ (bcall_fit (S f)) _ _ _ _ _ _ _ (F : bfit (U s)) B) as [_ T]. cbn in T. unfold w_after, put_line, timed. rewrite T. unfold b_timed. cbn [untimed bo_timeout bo_rest]. fold (line_body dstep d (lw_rest s1)).
  destruct (line_body dstep d (lw_rest s1)) as [[e y]| |]; try discriminate; intros H; now injection H as <-.
Qed.
Section Back.
Variable a : W -> bytes -> @lwriter W dst -> option (wout (option error * W * @lwriter W dst)).
Variable f : nat.
Hypothesis Ha : forall w d s r, lone (lw_rest s) -> b_call dinit dstep f w (CLine d) (U s) = Some r -> exists q, a w d s = Some q /\ r = un_n q.
Lemma prog_back : forall p s r, lone (lw_rest s) -> run_bprog (b_call dinit dstep f) (of_line w0 p) (U s) = Some r -> exists q, run_wprog dinit dstep a p s = Some q /\ r = un q.
Proof.
  assert (N : forall f o hs (x : wr), match o with OLine _ => False | _ => True end -> lone x -> b_call dinit dstep (S f) w0 (as_call o) (mkBo None hs x) =
    match run_op dinit dstep tt o x with WRet (n, e, _, y) => Some (WRet (n, e, w0, mkBo None (match o with OClose => [] | _ => hs end) y)) | WPan => Some WPan | WStuck => None end).
  { intros f0 o hs x No [[_ L2] L3]. now apply none_call. }
  assert (L : forall o (x : wr) n e u y, lone x -> run_op dinit dstep tt o x = WRet (n, e, u, y) -> lone y) by (intros; eapply run_op_lone; eauto).
  induction p as [w v| |w d k IH|d k IH|k IH|lvl k IH|k IH|k IH|h IHh q IH|k IH]; intros [hs x] r F; cbn [run_wprog of_line run_bprog]; unfold w_after; cbn [lw_rest lw_hooks] in *.
  - intros H. injection H as <-. now exists (WRet (w, v, mkLwriter hs x)).
  - intros H. injection H as <-. now exists WPan.
  - destruct (b_call dinit dstep f w (CLine d) (U (mkLwriter hs x))) as [z|] eqn:B; [|discriminate]. destruct (Ha _ _ (mkLwriter hs x) _ F B) as (q & A & ->). rewrite A.
    destruct q as [[[e w1] s1]| |]; cbn [un_n] in *; [|intros H; injection H as <-; now exists WPan|discriminate].
    apply IH. exact (bcall_fit _ _ _ _ _ _ _ (F : bfit (U (mkLwriter hs x))) B).
  - unfold untimed at 1. cbn [lw_rest lw_hooks]. destruct f as [|f1]; [discriminate|]. rewrite (N f1 (OWrite d) _ x Logic.I F). cbn [run_op]. pose proof (L (OWrite d) x) as Lx. cbn [run_op] in Lx.
    destruct (write dstep d x) as [[[n e] y]| |]; [|intros H; injection H as <-; now exists WPan|discriminate]. exact (IH (n, e) (mkLwriter hs y) r (Lx _ _ _ _ F eq_refl)).
  - unfold untimed at 1. cbn [lw_rest lw_hooks]. destruct f as [|f1]; [discriminate|]. rewrite (N f1 OFlush _ x Logic.I F). cbn [run_op]. pose proof (L OFlush x) as Lx. cbn [run_op] in Lx.
    destruct (flush dstep x) as [[e y]| |]; [|intros H; injection H as <-; now exists WPan|discriminate]. exact (IH e (mkLwriter hs y) r (Lx _ _ _ _ F eq_refl)).
  - unfold untimed at 1. cbn [lw_rest lw_hooks]. destruct f as [|f1]; [discriminate|]. rewrite (N f1 (OEnable lvl) _ x Logic.I F). cbn [run_op]. pose proof (L (OEnable lvl) x) as Lx. cbn [run_op] in Lx.
    destruct (enable_zlib_level dinit dstep lvl x) as [[e y]| |]; [|intros H; injection H as <-; now exists WPan|discriminate]. exact (IH e (mkLwriter hs y) r (Lx _ _ _ _ F eq_refl)).
  - unfold untimed at 1. cbn [lw_rest lw_hooks]. destruct f as [|f1]; [discriminate|]. rewrite (N f1 ODisable _ x Logic.I F). cbn [run_op]. pose proof (L ODisable x) as Lx. cbn [run_op] in Lx.
    destruct (disable_zlib dstep x) as [[e y]| |]; [|intros H; injection H as <-; now exists WPan|discriminate]. exact (IH e (mkLwriter hs y) r (Lx _ _ _ _ F eq_refl)).
  - apply IH. exact F.
  - intros H. apply (IH (mkLwriter (hs ++ [h]) x) r F). rewrite <- H. unfold untimed. cbn [lw_rest lw_hooks bo_timeout bo_hooks bo_rest]. now rewrite map_app.
  - unfold untimed at 1. cbn [lw_rest lw_hooks]. destruct f as [|f1]; [discriminate|]. rewrite (N f1 OClose _ x Logic.I F). cbn [run_op]. pose proof (L OClose x) as Lx. cbn [run_op] in Lx.
    destruct (close_writer dstep x) as [[e y]| |]; [|intros H; injection H as <-; now exists WPan|discriminate]. exact (IH e (mkLwriter [] y) r (Lx _ _ _ _ F eq_refl)).
Qed.
Lemma progs_back d : forall hs w s r, lone (lw_rest s) -> run_bprogs (b_call dinit dstep f) (map (fun h w d => of_line w0 (h w d)) hs) w d (U s) = Some r -> exists q, run_wprogs dinit dstep a hs w d s = Some q /\ r = un q.
Proof.
  induction hs as [|h hs IH]; intros w s r F; cbn [run_wprogs map run_bprogs]; [intros H; injection H as <-; now exists (WRet (w, HPass, s))|].
  destruct (run_bprog (b_call dinit dstep f) (of_line w0 (h w d)) (U s)) as [z|] eqn:B; [|discriminate]. destruct (prog_back _ _ _ F B) as (q & A & ->). rewrite A. 
  destruct q as [[[w1 [| |e]] s1]| |]; cbn [un] in *; try (intros H; injection H as <-; eexists; split; reflexivity).
  apply IH. exact (bprog_fit _ (bcall_fit f) _ _ _ _ _ (F : bfit (U s)) B).
Qed.
End Back.
Theorem line_back : forall f w d s r, lone (lw_rest s) -> b_call dinit dstep f w (CLine d) (U s) = Some r -> exists q, re_write dinit dstep f w d s = Some q /\ r = un_n q.
Proof.
  induction f as [|f IH]; intros w d s r F; [discriminate|]. cbn [b_call re_write]. unfold b_line. change (bo_rest (U s)) with (lw_rest s). destruct (wr_err (lw_rest s)) as [e|]; [intros H; injection H as <-; eexists; split; reflexivity|].
  change (bo_hooks (U s)) with (map (fun h w d => of_line w0 (h w d)) (lw_hooks s)). destruct (run_bprogs (b_call dinit dstep f) _ w d (U s)) as [z|] eqn:B; [|discriminate]. destruct (progs_back _ f IH d _ _ _ _ F B) as (q & A & ->). rewrite A.
  destruct q as [[[w1 [| |e]] s1]| |]; cbn [un] in *; try (intros H; injection H as <-; eexists; split; reflexivity); try discriminate.
  pose proof (bprogs_fit _ (bcall_fit f) _ _ _ _ _ _ _ (F : bfit (U s)) B) as [_ T]. cbn in T. unfold w_after, put_line, timed. rewrite T. unfold b_timed. cbn [untimed bo_timeout bo_rest]. fold (line_body dstep d (lw_rest s1)).
  destruct (line_body dstep d (lw_rest s1)) as [[e y]| |]; try discriminate; intros H; injection H as <-; eexists; split; reflexivity.
Qed.
End Lines.
End Told.
