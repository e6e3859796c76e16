(** Consequences for the properties of the writer. *)
From Verif Require Import Base BaseFacts LineReader SpecLine LineReaderStream LineReaderOps LineWriter SpecWriter LineWriterFacts LineWriterOps.

Section Final.
Context {W dst : Type} (dinit : Z -> dst) (dstep : dst -> dop -> dst * list bytes).
Notation writer := (writer W dst).
Notation run_op := (run_op dinit dstep).
Notation history := (history dinit dstep).
Notation rendered_all := (rendered_all dinit dstep).
Notation rendered := (rendered dinit dstep).
Notation rendered_open := (rendered_open dinit dstep).
Notation sofar := (sofar dinit dstep).
Notation good := (good dinit dstep).
Implicit Types w : writer.

(** ** C10 *)
Lemma timed_fails body w e w' : (forall w1 e1 w2, body w1 = WRet (Some e1, w2) -> wr_err w2 = Some e1) ->
  timed body w = WRet (Some e, w') -> wr_err w' = Some e.
Proof.
  intros Hb H. apply timed_cases in H. destruct H as [(err & w1 & [= ->] & -> & _)|(w1 & w2 & H & _ & Hq)]; [reflexivity|].
  apply Hb in H. destruct Hq as ((_&_&_&_&_&_&_&F8&_) & _). congruence.
Qed.

Lemma checked_fails (r : wout (option error * writer)) k e w :
  (forall w1, k w1 = WRet (Some e, w) -> wr_err w = Some e) -> checked r k = WRet (Some e, w) -> wr_err w = Some e.
Proof. intros Hk. unfold checked. destruct r as [[[e1|] w1]| |]; [intros [= -> <-]; reflexivity|apply Hk|discriminate..]. Qed.

Lemma flush_fails w e w' : flush dstep w = WRet (Some e, w') -> wr_err w' = Some e.
Proof.
  unfold flush. destruct (wr_err w) eqn:E; [intros [= <- <-]; assumption|]. apply timed_fails.
  intros w1 e1 w2. apply checked_fails. intros w3. destruct (wr_zlib_on w3); [|discriminate].
  apply checked_fails. discriminate.
Qed.

Lemma failure_sticks s o w n e s' w' : run_op s o w = WRet (n, Some e, s', w') ->
  match o with OLine _ | OFlush => True | _ => False end -> wr_err w' = Some e.
Proof.
  destruct o; try contradiction; cbn [SpecWriter.run_op]; intros H _.
  - rewrite write_line_put in H. destruct (wr_err w) eqn:E.
    { injection H as <- <- <- <-. assumption. }
    destruct (run_hooks (wr_hooks w) s d) as [s1 v]. destruct v; [|discriminate|injection H as <- <- <- <-; reflexivity].
    destruct (put dstep d w) as [[e1 w1]| |] eqn:Et; try discriminate.
    injection H as <- -> <- <-. revert Et. apply timed_fails.
    intros w3 e3 w4. apply checked_fails. discriminate.
  - destruct (flush dstep w) as [[e1 w1]| |] eqn:Et; try discriminate. injection H as <- -> <- <-. now apply flush_fails in Et.
Qed.

Definition failed_line (h : list (wop * (nat * option error))) (d : bytes) : Prop :=
  exists n e, In (OLine d, (n, Some e)) h.

Definition pin (h : list (wop * (nat * option error))) (acc : bytes) w : Prop :=
  wr_zcur w = false /\ wr_zlib_on w = false /\
  ((wr_open w = true /\ wr_berr w = None /\ dlv w ++ wr_buf w = acc) \/
   (wr_err w <> None /\ (wr_open w = true -> wr_berr w <> None) /\
    exists d, (d = [] \/ failed_line h d) /\ prefix_of (dlv w) (acc ++ d))).

Lemma pin_mono h r acc w : pin h acc w -> pin (h ++ [r]) acc w.
Proof.
  intros (H1 & H2 & [H|(H3 & H4 & d & Hd & H5)]); split; auto; split; auto. right. split; auto. split; auto.
  exists d. split; [|exact H5]. destruct Hd as [->|(n & e & Hd)]; [now left|right]. exists n, e. apply in_or_app. now left.
Qed.

Lemma sofar_plain w : wr_zcur w = false -> sofar [] 0 w (dlv w).
Proof. intros H. now apply sf_plain. Qed.
Lemma sofar_dlv w x : wr_zcur w = false -> sofar [] 0 w x -> dlv w = x.
Proof. intros H [y _ H2|ops H1]; [exact H2|congruence]. Qed.

Lemma step_pin h acc s w o n e s' w' d : pin h acc w -> run_op s o w = WRet (n, e, s', w') -> accepted (wr_hooks w) s o n e d ->
  plain_op o -> pin (h ++ [(o, (n, e))]) (acc ++ d) w'.
Proof.
  intros P Hr Ha Ho. destruct (wr_err w) as [e0|] eqn:Ee.
  - (* sticky *)
    assert (o = OClose \/ o <> OClose) as [->|Ho'] by (destruct o; auto; right; discriminate).
    + cbn in Hr. destruct (close_writer dstep w) as [[e1 w1]| |] eqn:Ec; try discriminate. injection Hr as <- <- <- <-.
      assert (d = []) as -> by (inversion Ha; reflexivity). rewrite app_nil_r.
      pose proof (close_err _ _ _ _ Ec) as (C1 & C2 & _).
      unfold close_writer in Ec. destruct (wr_open w) eqn:Eo; [|discriminate].
      destruct P as (P1 & P2 & P3). destruct (bw_flush dstep w) as [[e2 w2]| |] eqn:Ef; try discriminate.
      pose proof (bw_flush_frame _ _ _ _ Ef) as ((F1&F2&F3&F4&F5&F6&F7&F8&F9) & _ & Fe & Fb).
      rewrite F8, Ee in Ec. rewrite F6, P2 in Ec. injection Ec as <- <-.
      split; [reflexivity|]. split; [reflexivity|]. right. cbn. rewrite F8, Ee. split; [discriminate|]. split; [discriminate|].
      change (dlv _) with (dlv w2).
      destruct P3 as [(_ & P4 & P5)|(P4 & P5 & d & P6 & P7)].
      * exists []. split; [now left|]. rewrite app_nil_r.
        destruct (bw_flush_ok dinit dstep [] 0 w _ e2 w2 (sofar_plain w P1) Ef (or_intror P1)) as (x' & K1 & K2).
        apply sofar_dlv in K1; [|congruence]. rewrite K1. exists (wr_buf w2). congruence.
      * exists d. split.
        { destruct P6 as [->|(k & ee & P6)]; [now left|right]. exists k, ee. apply in_or_app. now left. }
        unfold bw_flush in Ef. destruct (wr_berr w) as [e3|] eqn:Eb; [|exfalso; now apply P5].
        injection Ef as <- <-. exact P7.
    + destruct (sticky_op _ _ _ _ _ _ _ _ _ _ Ee Ho' Hr) as (-> & -> & -> & ->).
      assert (d = []) as -> by (inversion Ha; subst; auto). rewrite app_nil_r. now apply pin_mono.
  - destruct P as (P1 & P2 & [(P3 & P4 & P5)|(P3 & _)]); [|congruence].
    assert (Hzz : wr_zlib_on w = wr_zcur w) by congruence.
    assert (Done : forall w2 x', wr_zcur w2 = false -> wr_zlib_on w2 = false -> wr_open w2 = true -> wr_err w2 <> None ->
       sofar [] 0 w2 x' -> x' ++ wr_buf w2 = dlv w ++ wr_buf w -> pin (h ++ [(o, (n, e))]) acc w2).
    { intros w2 x' Z1 Z2 Z3 Z4 Z5 Z6. apply sofar_dlv in Z5; [|exact Z1]. split; [exact Z1|]. split; [exact Z2|].
      destruct (wr_berr w2) as [e3|] eqn:E3.
      - right. split; [exact Z4|]. split; [congruence|]. exists []. split; [now left|]. rewrite app_nil_r, Z5.
        exists (wr_buf w2). congruence.
      - left. split; [exact Z3|]. split; [reflexivity|]. congruence. }
    assert (Fl : forall er w2, flush dstep w = WRet (Some er, w2) -> pin (h ++ [(o, (n, e))]) acc w2).
    { intros er w2 Ef. pose proof (flush_ok dinit dstep [] 0 w _ _ _ (sofar_plain w P1) Hzz Ee Ef) as (K1 & K2).
      destruct (K2 P1) as (K3 & K4 & K5 & _ & x' & K6 & K7). apply (Done w2 x'); auto; congruence. }
    destruct o as [l|p| |lv| |]; cbn [SpecWriter.run_op] in Hr; try contradiction.
    + rewrite write_line_put, Ee in Hr. destruct (run_hooks (wr_hooks w) s l) as [s1 v] eqn:Eh. destruct v as [| |er].
      * destruct (put dstep l w) as [[e1 w1]| |] eqn:Ep; try discriminate. injection Hr as <- <- <- <-.
        pose proof (put_ok dinit dstep [] 0 w _ e1 w1 l (sofar_plain w P1) P4 Ep) as K. destruct e1 as [e1|].
        -- assert (d = []) as -> by (inversion Ha; reflexivity). rewrite app_nil_r.
           destruct K as (K1 & K2). destruct (K2 P1) as (K3 & K4 & K5 & _ & x' & K6 & [(K7 & K8)|(K7 & t & K8)]).
           ++ apply (Done w1 x'); auto; congruence.
           ++ split; [exact K3|]. split; [congruence|]. right. split; [congruence|]. split; [auto|].
              exists l. split; [right; exists 0, e1; apply in_or_app; right; now left|].
              apply sofar_dlv in K6; [|exact K3]. rewrite K6. exists t. rewrite K8, app_assoc. congruence.
        -- destruct K as ((F1&F2&F3&F4&F5&F6&F7&F8&F9) & Kb & x' & K1 & K2).
           assert (d = l) as ->.
           { inversion Ha as [? ? ? Hv|? ? ? Hv|? ? ? | | | | |]; subst; [reflexivity|]. apply verdict_run in Hv. congruence. }
           split; [congruence|]. split; [congruence|]. left. split; [congruence|]. split; [exact Kb|].
           apply sofar_dlv in K1; [|congruence]. rewrite K1, K2, app_assoc. congruence.
      * injection Hr as <- <- <- <-.
        assert (d = []) as ->.
        { inversion Ha as [? ? ? Hv|? ? ? Hv|? ? ? | | | | |]; subst; [|reflexivity]. apply verdict_run in Hv. congruence. }
        rewrite app_nil_r. split; [exact P1|]. split; [exact P2|]. left. auto.
      * injection Hr as <- <- <- <-. assert (d = []) as -> by (inversion Ha; reflexivity). rewrite app_nil_r.
        split; [exact P1|]. split; [exact P2|]. left. auto.
    + destruct (write dstep p w) as [[[n1 e1] w1]| |] eqn:Ew; try discriminate. injection Hr as <- <- <- <-.
      assert (d = firstn n1 p) as -> by (inversion Ha; reflexivity).
      unfold write in Ew. rewrite Ee in Ew.
      assert (CW : forall w2, wr_zcur w2 = false -> wr_zlib_on w2 = false -> wr_open w2 = true -> wr_berr w2 = None -> wr_buf w2 = [] ->
         dlv w2 = acc -> cur_write dstep p w2 = WRet (n1, e1, w1) -> pin (h ++ [(OWrite p, (n1, e1))]) (acc ++ firstn n1 p) w1).
      { intros w2 Z1 Z2 Z3 Z4 Z5 Z6 Z7.
        pose proof (cur_write_frame _ _ _ _ _ _ Z7) as ((F1&F2&F3&F4&F5&F6&F7&F8&F9) & Fb & Fe & _).
        destruct (cur_write_ok dinit dstep [] 0 p w2 _ n1 e1 w1 (sofar_plain w2 Z1) Z7 (or_intror Z1)) as [K _].
        apply sofar_dlv in K; [|congruence]. split; [congruence|]. split; [congruence|]. left.
        split; [congruence|]. split; [congruence|]. rewrite K, Fb, Z5, app_nil_r. congruence. }
      destruct (wr_buf w) as [|b0 b] eqn:Eb.
      * apply (CW w); auto. now rewrite app_nil_r in P5.
      * destruct (flush dstep w) as [[[e2|] w2]| |] eqn:Ef; try discriminate.
        -- injection Ew as <- <- <-. rewrite app_nil_r. eapply Fl; eauto.
        -- pose proof (flush_ok dinit dstep [] 0 w _ _ _ (sofar_plain w P1) Hzz Ee Ef) as (K1 & (F1&F2&F3&F4&F5&F6&F7&F8&F9) & K3 & K4).
           apply sofar_dlv in K1; [|congruence]. apply (CW w2); auto; congruence.
    + destruct (flush dstep w) as [[e1 w1]| |] eqn:Ef; try discriminate. injection Hr as <- <- <- <-.
      assert (d = []) as -> by (inversion Ha; reflexivity). rewrite app_nil_r.
      destruct e1 as [e1|]; [eapply Fl; eauto|].
      pose proof (flush_ok dinit dstep [] 0 w _ _ _ (sofar_plain w P1) Hzz Ee Ef) as (K1 & (F1&F2&F3&F4&F5&F6&F7&F8&F9) & K3 & K4).
      apply sofar_dlv in K1; [|congruence]. split; [congruence|]. split; [congruence|]. left.
      split; [congruence|]. split; [exact K4|]. rewrite K1, K3, app_nil_r. exact P5.
    + destruct (close_writer dstep w) as [[e1 w1]| |] eqn:Ec; try discriminate. injection Hr as <- <- <- <-.
      assert (d = []) as -> by (inversion Ha; reflexivity). rewrite app_nil_r.
      unfold close_writer in Ec. rewrite P3 in Ec.
      destruct (bw_flush dstep w) as [[e2 w2]| |] eqn:Ef; try discriminate.
      pose proof (bw_flush_frame _ _ _ _ Ef) as ((F1&F2&F3&F4&F5&F6&F7&F8&F9) & _ & Fe & Fb).
      destruct (bw_flush_ok dinit dstep [] 0 w _ e2 w2 (sofar_plain w P1) Ef (or_intror P1)) as (x' & K1 & K2).
      apply sofar_dlv in K1; [|congruence].
      rewrite F8, Ee in Ec. cbn [wr_zlib_on set_error] in Ec. rewrite F6, P2 in Ec. injection Ec as <- <-.
      split; [reflexivity|]. split; [reflexivity|]. right. cbn. split; [discriminate|]. split; [discriminate|].
      exists []. split; [now left|]. change (dlv _) with (dlv w2). rewrite app_nil_r, K1. exists (wr_buf w2). congruence.
Qed.

Theorem only_prefix script size hs tmo s0 h acc x s w :
  history (fresh script size hs tmo) s0 h acc x s w -> Forall (fun r => plain_op (fst r)) h ->
  exists d, (d = [] \/ exists n e, In (OLine d, (n, Some e)) h) /\ prefix_of (delivered (cn_trace (wr_conn w))) (acc ++ d).
Proof.
  intros H Hp. assert (P : pin h acc w).
  { induction H as [|h acc x s w o n e s' w' d H IH Hr Ha].
    - pose proof (fresh_fields (W:=W) (dst:=dst) script size hs tmo) as F. cbn in F. destruct F as (F1&F2&F3&F4&F5&F6&F7&F8).
      split; [exact F3|]. split; [exact F7|]. left. unfold dlv. rewrite F1, F4. auto.
    - apply Forall_app in Hp. destruct Hp as [Hp Hp']. inversion Hp'; subst. eapply step_pin; eauto. }
  destruct P as (_ & _ & [(_ & _ & <-)|(_ & _ & d & H1 & H2)]).
  - exists []. split; [now left|]. rewrite app_nil_r. now exists (wr_buf w).
  - eauto.
Qed.

(** ** C11 *)
Definition is_write (ev : event) : Prop := exists p n e, ev = EvWrite p n e.
Definition wtrace w w' : Prop :=
  exists ws, cn_trace (wr_conn w') = cn_trace (wr_conn w) ++ ws /\ Forall is_write ws.
Lemma wtrace_refl w : wtrace w w.
Proof. exists []. rewrite app_nil_r. auto. Qed.
Lemma wtrace_trans a b c : wtrace a b -> wtrace b c -> wtrace a c.
Proof. intros (x & X1 & X2) (y & Y1 & Y2). exists (x ++ y). rewrite Y1, X1, app_assoc. split; [auto|]. apply Forall_app. auto. Qed.

Lemma zlib_do_trace o w e w' : zlib_do dstep o w = WRet (e, w') -> wtrace w w'.
Proof.
  unfold zlib_do. destruct (wr_zw w) as [z|]; [|discriminate]. unfold zw_do. destruct (snd z).
  - intros [= <- <-]. exists []. rewrite app_nil_r. split; [reflexivity|constructor].
  - destruct (dstep (fst z) o) as [d ps]. destruct (conn_writes ps (wr_conn w)) as [e1 c1] eqn:Ec. intros [= <- <-].
    apply conn_writes_ok in Ec. destruct Ec as (_ & _ & evs & E1 & E2). exists evs. split; [exact E1|exact E2].
Qed.
Lemma cur_write_trace p w n e w' : cur_write dstep p w = WRet (n, e, w') -> wtrace w w'.
Proof.
  unfold cur_write. destruct (wr_zcur w).
  - destruct (zlib_do dstep (DWrite p) w) as [[[e1|] w1]| |] eqn:E; try discriminate; intros [= <- <- <-]; now apply zlib_do_trace in E.
  - destruct (conn_write p (wr_conn w)) as [[n1 e1] c1] eqn:Ec. intros [= <- <- <-]. apply conn_write_ok in Ec.
    destruct Ec as (_&_&_&_&_&E). exists [EvWrite p n1 e1]. split; [exact E|]. repeat constructor. red. eauto.
Qed.
Lemma bw_flush_trace w e w' : bw_flush dstep w = WRet (e, w') -> wtrace w w'.
Proof.
  unfold bw_flush. destruct (wr_berr w); [intros [= <- <-]; exact (wtrace_refl w)|].
  destruct (wr_buf w) as [|b0 b]; [intros [= <- <-]; exact (wtrace_refl w)|].
  destruct (cur_write dstep (b0 :: b) w) as [[[n e1] w1]| |] eqn:Ec; try discriminate. apply cur_write_trace in Ec.
  match goal with |- match ?e with _ => _ end = _ -> _ => destruct e end; intros [= <- <-]; exact Ec.
Qed.
Lemma bw_loop_trace : forall f p w e w', bw_loop dstep f p w = WRet (e, w') -> wtrace w w'.
Proof.
  induction f as [|f IH]; intros p w e w'; cbn [bw_loop].
  - destruct (wr_berr w); [intros [= <- <-]; exact (wtrace_refl w)|].
    destruct (length p <=? wr_size w - length (wr_buf w))%nat; [|discriminate]. intros [= <- <-]. exact (wtrace_refl w).
  - destruct (wr_berr w); [intros [= <- <-]; exact (wtrace_refl w)|].
    destruct (length p <=? wr_size w - length (wr_buf w))%nat; [intros [= <- <-]; exact (wtrace_refl w)|].
    destruct (wr_buf w) as [|b0 b].
    + destruct (cur_write dstep p w) as [[[n e1] w1]| |] eqn:Ec; try discriminate. intros H. apply IH in H.
      apply cur_write_trace in Ec. eapply wtrace_trans; [exact Ec|exact H].
    + match goal with |- match bw_flush dstep ?x with _ => _ end = _ -> _ => destruct (bw_flush dstep x) as [[e1 w1]| |] eqn:Ec end; try discriminate.
      intros H. apply IH in H. apply bw_flush_trace in Ec. eapply wtrace_trans; [exact Ec|exact H].
Qed.

Lemma timed_trace body w e w' : wr_timeout w = true -> timed body w = WRet (e, w') ->
  (forall w1 e1 w2, body w1 = WRet (e1, w2) -> wtrace w1 w2) ->
  (exists err, e = Some err /\ wr_err w' = Some err /\ cn_trace (wr_conn w') = cn_trace (wr_conn w) ++ [EvTimeout true (Some err)]) \/
  (exists ws, Forall is_write ws /\ cn_trace (wr_conn w') = cn_trace (wr_conn w) ++ EvTimeout true None :: ws ++ [EvTimeout false None]).
Proof.
  unfold timed. intros -> H Hb. destruct (hd None (wr_treplies w)) as [err|] eqn:Et.
  - injection H as <- <-. left. exists err. split; [reflexivity|]. split; reflexivity.
  - match type of H with match body ?x with _ => _ end = _ => destruct (body x) as [[e2 w2]| |] eqn:Eb end; try discriminate.
    injection H as <- <-. apply Hb in Eb. destruct Eb as (ws & E1 & E2). right. exists ws. split; [exact E2|].
    cbn in *. rewrite E1, <- !app_assoc. reflexivity.
Qed.

Lemma bracketed s o w n e s' w' : wr_timeout w = true -> run_op s o w = WRet (n, e, s', w') ->
  match o with OLine _ | OFlush => True | _ => False end ->
  (cn_trace (wr_conn w') = cn_trace (wr_conn w) /\
     (wr_err w <> None \/ exists d v, o = OLine d /\ verdict (wr_hooks w) s d s' v /\ v <> HPass)) \/
  (exists err, e = Some err /\ wr_err w' = Some err /\ cn_trace (wr_conn w') = cn_trace (wr_conn w) ++ [EvTimeout true (Some err)]) \/
  (exists ws, Forall is_write ws /\ cn_trace (wr_conn w') = cn_trace (wr_conn w) ++ EvTimeout true None :: ws ++ [EvTimeout false None]).
Proof.
  intros Ht H Ho. destruct o; try contradiction; cbn [SpecWriter.run_op] in H.
  - rewrite write_line_put in H. destruct (wr_err w) eqn:Ee.
    { injection H as <- <- <- <-. left. split; [reflexivity|]. left. congruence. }
    pose proof (run_verdict (wr_hooks w) s d) as Hv.
    destruct (run_hooks (wr_hooks w) s d) as [s1 v]. cbn in Hv. destruct v as [| |er].
    + destruct (put dstep d w) as [[e1 w1]| |] eqn:Et; try discriminate.
      injection H as <- <- <- <-. right. eapply timed_trace; [exact Ht|exact Et|].
      intros w1' e1' w2. unfold checked. destruct (bw_write dstep d w1') as [[[e2|] w3]| |] eqn:Eb; try discriminate;
        intros [= <- <-]; now apply bw_loop_trace in Eb.
    + injection H as <- <- <- <-. left. split; [reflexivity|]. right. exists d, HDrop. split; [reflexivity|]. split; [exact Hv|discriminate].
    + injection H as <- <- <- <-. left. split; [reflexivity|]. right. exists d, (HErr er). split; [reflexivity|]. split; [exact Hv|discriminate].
  - destruct (flush dstep w) as [[e1 w1]| |] eqn:Ef; try discriminate. injection H as <- <- <- <-. unfold flush in Ef.
    destruct (wr_err w) eqn:Ee. { injection Ef as <- <-. left. split; [reflexivity|]. left. congruence. }
    right. eapply timed_trace; [exact Ht|exact Ef|]. clear. intros w1 e1 w2. unfold checked.
    destruct (bw_flush dstep w1) as [[[e2|] w3]| |] eqn:Eb; try discriminate.
    + intros [= <- <-]. now apply bw_flush_trace in Eb.
    + apply bw_flush_trace in Eb. destruct (wr_zlib_on w3).
      * destruct (zlib_do dstep DFlush w3) as [[[e3|] w4]| |] eqn:Ez; try discriminate; intros [= <- <-];
          apply zlib_do_trace in Ez; eapply wtrace_trans; eauto.
      * intros [= <- <-]. exact Eb.
Qed.

(** ** C12 *)
Lemma hook_drop w s d s' : wr_err w = None -> verdict (wr_hooks w) s d s' HDrop -> run_op s (OLine d) w = WRet (0, None, s', w).
Proof. intros He Hv. apply verdict_run in Hv. cbn. unfold write_line. now rewrite He, Hv. Qed.
Lemma hook_fail w s d s' er : wr_err w = None -> verdict (wr_hooks w) s d s' (HErr er) ->
  run_op s (OLine d) w = WRet (0, Some er, s', set_error er w).
Proof. intros He Hv. apply verdict_run in Hv. cbn. unfold write_line. now rewrite He, Hv. Qed.
Lemma hook_state w s d n e s' w' : wr_err w = None -> run_op s (OLine d) w = WRet (n, e, s', w') ->
  exists v, verdict (wr_hooks w) s d s' v.
Proof.
  intros He H. pose proof (run_verdict (wr_hooks w) s d) as Hv. cbn in H. rewrite write_line_put, He in H.
  destruct (run_hooks (wr_hooks w) s d) as [s1 v]. cbn in Hv. exists v.
  assert (s' = s1); [|now subst]. destruct v.
  - destruct (put dstep d w) as [[e1 w1]| |]; try discriminate. congruence.
  - congruence.
  - congruence.
Qed.

(** ** C13, C14 *)
Lemma hon_fresh script size hs tmo : Forall honest script -> hon (fresh script size hs tmo : writer).
Proof. intros H. unfold hon. destruct (fresh_fields (W:=W) (dst:=dst) script size hs tmo) as (-> & _). exact H. Qed.

Theorem sections script size hs tmo s0 h acc x s w :
  Forall honest script -> history (fresh script size hs tmo) s0 h acc x s w -> Forall no_failure h -> wr_err w = None ->
  acc = concat (map contents (fst x)) ++ contents (snd x) /\
  exists base cur flushed pending,
    rendered_all (fst x) base /\ rendered_open cur flushed /\ extend cur pending = snd x /\
    delivered (cn_trace (wr_conn w)) = base ++ flushed /\
    (forall h' n, h = h' ++ [(OFlush, (n, None))] -> pending = []).
Proof.
  intros Hh H Hn He. split; [eapply history_contents; eauto|].
  destruct (history_good dinit dstep _ _ _ _ _ _ _ (fresh_good dinit dstep script size hs tmo) H He (or_intror (conj (hon_fresh _ size hs tmo Hh) Hn)))
    as (G & _ & _ & Hon).
  destruct G as (_ & _ & _ & _ & base & lvl & y & R & Gs & Gc).
  assert (Hp : forall h' n, h = h' ++ [(OFlush, (n, None))] -> wr_buf w = []).
  { intros h' n ->. apply history_snoc in H. destruct H as (acc0 & x0 & s1 & w1 & d & H' & Hr & Ha & _).
    apply Forall_app in Hn. destruct Hn as [Hn _].
    assert (He1 : wr_err w1 = None) by (eapply err_sticky; eauto).
    destruct (history_good dinit dstep _ _ _ _ _ _ _ (fresh_good dinit dstep script size hs tmo) H' He1 (or_intror (conj (hon_fresh _ size hs tmo Hh) Hn)))
      as (G' & _ & _ & Hon').
    assert (Hal : allowed OFlush n None w1) by (right; split; [exact I|apply Hon', hon_fresh, Hh]).
    destruct (step_good dinit dstep _ _ _ _ _ _ _ _ _ G' Hr Ha Hal He) as (_ & _ & _ & _ & K5). now apply K5. }
  destruct Gs as [y Hz Hd|ops Hz Hc Hho Hw Hd]; rewrite Hz in Gc.
  - exists base, (SPlain y), y, (wr_buf w). split; [exact R|]. split; [constructor|]. split; [symmetry; exact Gc|]. split; [exact Hd|exact Hp].
  - exists base, (SZlib lvl (written ops)), (snd (deflate dstep (dinit lvl) ops)), (wr_buf w).
    split; [exact R|]. split; [now constructor|]. split; [symmetry; exact Gc|]. split; [exact Hd|exact Hp].
Qed.

Theorem close_completes script size hs tmo s0 h acc x s w w' :
  Forall honest script -> history (fresh script size hs tmo) s0 h acc x s w -> Forall no_failure h -> wr_err w = None ->
  run_op s OClose w = WRet (0, None, s, w') ->
  rendered_all (fst x ++ [snd x]) (delivered (cn_trace (wr_conn w'))) /\ wr_err w' = Some err_writer_closed /\
  forall o s1, o <> OClose -> run_op s1 o w' = WRet (0, Some err_writer_closed, s1, w').
Proof.
  intros Hh H Hn He Hc.
  destruct (history_good dinit dstep _ _ _ _ _ _ _ (fresh_good dinit dstep script size hs tmo) H He (or_intror (conj (hon_fresh _ size hs tmo Hh) Hn)))
    as (G & _ & _ & Hon).
  destruct G as (G1 & G2 & G3 & G4 & base & lvl & y & R & Gs & Gc).
  assert (Goal1 : rendered_all (fst x ++ [snd x]) (delivered (cn_trace (wr_conn w'))) /\ wr_err w' = Some err_writer_closed).
  { cbn in Hc. unfold close_writer in Hc. rewrite G1 in Hc.
    destruct (bw_flush dstep w) as [[e2 w2]| |] eqn:Ef; try discriminate.
    pose proof (bw_flush_frame _ _ _ _ Ef) as ((F1&F2&F3&F4&F5&F6&F7&F8&F9) & _ & Fe & Fb).
    rewrite F8, G2 in Hc. cbn [wr_zlib_on set_error] in Hc.
    assert (He2 : e2 = None).
    { destruct (wr_zlib_on w2); [|injection Hc as -> _; reflexivity].
      destruct (zlib_do dstep DClose (set_error err_writer_closed w2)) as [[[e3|] w3]| |]; try discriminate. injection Hc as -> _. reflexivity. }
    destruct e2 as [e2|]; [discriminate|]. destruct (bw_flush_ok dinit dstep base lvl w y None w2 Gs Ef (or_introl eq_refl)) as (y' & K1 & K2).
    rewrite (Fb eq_refl), app_nil_r in K2. subst y'. rewrite F6, G4 in Hc. destruct (wr_zcur w) eqn:Ez.
    - destruct (zlib_do dstep DClose (set_error err_writer_closed w2)) as [[e3 w3]| |] eqn:Ed; try discriminate.
      destruct e3 as [e3|]; [discriminate|]. injection Hc as <-. cbn.
      assert (Hz2 : wr_zcur (set_error err_writer_closed w2) = true) by (cbn; congruence).
      destruct (zlib_do_ok dinit dstep base lvl _ DClose _ w3 (sofar_err dinit dstep _ _ _ _ err_writer_closed K1) Hz2 Ed)
        as (ops & N1 & N2 & N3 & N4 & N5 & N6 & N7 & N8 & N9).
      destruct N4 as (M1&M2&M3&M4&M5&M6&M7&M8&M9). split; [|exact M8].
      change (delivered (cn_trace (wr_conn w3))) with (dlv w3). rewrite N9. apply rendered_snoc; [exact R|]. rewrite Gc, N1. now constructor.
    - injection Hc as <-. cbn. split; [|reflexivity].
      inversion K1 as [? _ Hd|ops Hq]; [|congruence]. subst x0. change (delivered (cn_trace (wr_conn w2))) with (dlv w2). rewrite Hd.
      apply rendered_snoc; [exact R|]. rewrite Gc. constructor. }
  split; [apply Goal1|]. split; [apply Goal1|]. intros o s1 Ho. apply sticky_returns; [apply Goal1|exact Ho].
Qed.

Lemma close_twice (s s1 : W) w w' n e : run_op s OClose w = WRet (n, e, s1, w') -> run_op s1 OClose w' = WPan.
Proof.
  cbn. destruct (close_writer dstep w) as [[e1 w1]| |] eqn:Ec; try discriminate. intros [= <- <- <- <-].
  apply close_err in Ec. destruct Ec as (_ & Ho & _). unfold close_writer. now rewrite Ho.
Qed.

(** ** No panics, no hangs *)
Lemma zlib_do_zcur o w e w' : zlib_do dstep o w = WRet (e, w') -> wr_zcur w' = wr_zcur w /\ wr_zlib_on w' = wr_zlib_on w /\ wr_open w' = wr_open w.
Proof.
  unfold zlib_do. destruct (wr_zw w); [|discriminate]. destruct (zw_do dstep o z (wr_conn w)) as [[e1 z1] c1]. intros [= <- <-]. auto.
Qed.

Lemma timed_total2 (body : writer -> wout (option error * writer)) w : usable w ->
  (forall w1, usable w1 -> exists e w2, body w1 = WRet (e, w2) /\ usable w2) -> exists e w', timed body w = WRet (e, w') /\ usable w'.
Proof.
  intros Hu H. unfold timed. destruct (wr_timeout w).
  - destruct (hd None (wr_treplies w)) as [err|]; [do 2 eexists; split; [reflexivity|exact Hu]|].
    match goal with |- context [body ?x] => destruct (H x Hu) as (e & w2 & -> & K) end.
    do 2 eexists; split; [reflexivity|exact K].
  - now apply H.
Qed.

Lemma bw_flush_usable w : usable w -> exists e w', bw_flush dstep w = WRet (e, w') /\ usable w'.
Proof.
  intros [U1 U2]. destruct (bw_flush_total dstep w) as (e & w' & E & K & _); [auto|]. exists e, w'. split; [exact E|].
  apply bw_flush_frame in E. destruct E as ((F1&F2&F3&F4&F5&F6&F7&F8&F9) & _). split; [congruence|]. rewrite F4, F6. auto.
Qed.
Lemma bw_write_usable p w : usable w -> exists e w', bw_write dstep p w = WRet (e, w') /\ usable w'.
Proof.
  intros [U1 U2]. destruct (bw_write_total dstep p w) as (e & w' & E & K); [auto|]. exists e, w'. split; [exact E|].
  unfold bw_write in E. apply bw_loop_frame in E. destruct E as ((F1&F2&F3&F4&F5&F6&F7&F8&F9) & _). split; [congruence|]. rewrite F4, F6. auto.
Qed.
Lemma cur_write_usable p w : usable w -> exists n e w', cur_write dstep p w = WRet (n, e, w') /\ usable w'.
Proof.
  intros [U1 U2]. destruct (cur_write_total dstep p w) as (n & e & w' & E & K); [auto|]. exists n, e, w'. split; [exact E|].
  apply cur_write_frame in E. destruct E as ((F1&F2&F3&F4&F5&F6&F7&F8&F9) & _). split; [congruence|]. rewrite F4, F6. auto.
Qed.
Lemma zlib_do_usable o w : usable w -> wr_zlib_on w = true -> exists e w', zlib_do dstep o w = WRet (e, w') /\ usable w' /\ wr_zw w' <> None.
Proof.
  intros [U1 U2] Hz. destruct (zlib_do_total dstep o w) as (e & w' & E & K); [auto|]. exists e, w'. split; [exact E|]. split; [|exact K].
  apply zlib_do_zcur in E. destruct E as (E1 & E2 & E3). split; [congruence|]. auto.
Qed.

Lemma flush_usable w : usable w -> exists e w', flush dstep w = WRet (e, w') /\ usable w'.
Proof.
  intros U. unfold flush. destruct (wr_err w); [eauto|]. apply timed_total2; [exact U|]. clear w U. intros w U.
  destruct (bw_flush_usable w U) as ([e|] & w1 & -> & U1); cbn [checked]; [do 2 eexists; split; [reflexivity|exact U1]|].
  destruct (wr_zlib_on w1) eqn:Ez; [|eauto].
  destruct (zlib_do_usable DFlush w1 U1 Ez) as ([e|] & w2 & -> & U2 & _); cbn [checked]; do 2 eexists; (split; [reflexivity|exact U2]).
Qed.

Lemma op_usable s o w : usable w -> exists n e s' w', run_op s o w = WRet (n, e, s', w') /\
  ((o <> OClose /\ match o with OEnable lvl => (-2 <= lvl <= 9)%Z | _ => True end) -> usable w').
Proof.
  intros U. destruct o as [l|p| |lv| |]; cbn [SpecWriter.run_op].
  - rewrite write_line_put. destruct (wr_err w); [eauto 10|]. destruct (run_hooks (wr_hooks w) s l) as [s1 [| |er]]; [|eauto 10|].
    + destruct (timed_total2 (fun w1 => checked (bw_write dstep l w1) (fun w2 => WRet (None, w2))) w U) as (e & w' & E & U').
      { intros w1 U1. destruct (bw_write_usable l w1 U1) as ([e|] & w2 & -> & U2); cbn [checked]; do 2 eexists; (split; [reflexivity|exact U2]). }
      unfold put. rewrite E. do 4 eexists. split; [reflexivity|auto].
    + do 4 eexists. split; [reflexivity|]. intros _. exact U.
  - unfold write. destruct (wr_err w); [eauto 10|]. destruct (wr_buf w) as [|b0 b].
    + destruct (cur_write_usable p w U) as (n & e & w' & -> & U'). eauto 10.
    + destruct (flush_usable w U) as ([e|] & w1 & -> & U1); [eauto 10|].
      destruct (cur_write_usable p w1 U1) as (n & e & w' & -> & U'). eauto 10.
  - destruct (flush_usable w U) as (e & w1 & -> & U1). eauto 10.
  - unfold enable_zlib_level. destruct (wr_err w); [eauto 10|]. destruct (wr_zlib_on w); [eauto 10|].
    destruct (flush_usable w U) as ([e|] & w1 & -> & U1); [eauto 10|].
    match goal with |- context [if ?c then _ else _] => destruct c eqn:Ec end.
    + do 4 eexists. split; [reflexivity|]. intros [_ Hl]. exfalso. apply andb_true_iff in Ec. destruct Ec as [_ Ec].
      apply negb_true_iff in Ec. assert (level_ok lv = true); [|congruence]. unfold level_ok. apply andb_true_iff; split; apply Z.leb_le; lia.
    + do 4 eexists. split; [reflexivity|]. intros _. split; [exact (proj1 U1)|]. cbn. discriminate.
  - unfold disable_zlib. destruct (wr_err w); [eauto 10|]. destruct (wr_zlib_on w) eqn:Ez; [|eauto 10].
    destruct (bw_flush_usable w U) as ([e|] & w1 & E1 & U1); rewrite E1; cbn [checked]; [do 4 eexists; split; [reflexivity|intros _; exact U1]|].
    apply bw_flush_frame in E1. destruct E1 as ((F1&F2&F3&F4&F5&F6&F7&F8&F9) & _).
    destruct (zlib_do_usable DClose w1 U1) as ([e|] & w2 & -> & U2 & _); cbn [checked]; [congruence|..]; do 4 eexists; (split; [reflexivity|]).
    + intros _; exact U2.
    + intros _. split; [exact (proj1 U2)|]. cbn. intuition discriminate.
  - unfold close_writer. destruct (wr_open w) eqn:Eo; [|destruct U; congruence].
    destruct (bw_flush_usable w U) as (e & w1 & -> & U1).
    set (w2 := match wr_err w1 with None => _ | Some _ => _ end).
    assert (U2 : usable w2) by (unfold w2; destruct (wr_err w1); exact U1). destruct (wr_zlib_on w2) eqn:Ez.
    + destruct (zlib_do_usable DClose w2 U2 Ez) as (e2 & w3 & -> & U3 & _). do 4 eexists. split; [reflexivity|]. intuition congruence.
    + do 4 eexists. split; [reflexivity|]. intuition congruence.
Qed.

Definition proper (r : wop * (nat * option error)) : Prop :=
  match fst r with OClose => False | OEnable lvl => (-2 <= lvl <= 9)%Z | _ => True end.

Theorem no_panic script size hs tmo s0 h acc x s w o :
  history (fresh script size hs tmo) s0 h acc x s w -> Forall proper h ->
  exists n e s' w', run_op s o w = WRet (n, e, s', w').
Proof.
  intros H Hp. assert (U : usable w).
  { induction H as [|h acc x s w o' n e s' w' d H IH Hr Ha].
    - pose proof (fresh_fields (W:=W) (dst:=dst) script size hs tmo) as F. cbn in F. destruct F as (F1&F2&F3&F4&F5&F6&F7&F8).
      split; [exact F2|]. rewrite F3, F7. intros [|]; discriminate.
    - apply Forall_app in Hp. destruct Hp as [Hp Hp']. inversion Hp' as [|? ? Hq _]; subst.
      destruct (op_usable s o' w (IH Hp)) as (n1 & e1 & s1 & w1 & E & K). rewrite E in Hr. injection Hr as <- <- <- <-.
      apply K. destruct o'; cbn in Hq; try contradiction; split; auto; discriminate. }
  destruct (op_usable s o w U) as (n & e & s' & w' & E & _). eauto.
Qed.

(** ** C15 *)
Lemma enable_refused lvl s w : wr_err w = None -> wr_zlib_on w = true -> run_op s (OEnable lvl) w = WRet (0, Some err_zlib_active, s, w).
Proof. intros H1 H2. cbn. unfold enable_zlib_level. now rewrite H1, H2. Qed.
Lemma disable_refused s w : wr_err w = None -> wr_zlib_on w = false -> run_op s ODisable w = WRet (0, Some err_zlib_inactive, s, w).
Proof. intros H1 H2. cbn. unfold disable_zlib. now rewrite H1, H2. Qed.
End Final.
