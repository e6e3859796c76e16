(** Histories of writer operations. *)
From Verif Require Import Base BaseFacts LineReader SpecLine LineReaderStream LineReaderOps LineWriter SpecWriter LineWriterFacts.

Section Ops.
Context {W dst : Type} (dinit : Z -> dst) (dstep : dst -> dop -> dst * list bytes).
Notation writer := (writer W dst).
Notation run_op := (run_op dinit dstep).
Notation history := (history dinit dstep).
Notation rendered_all := (rendered_all dinit dstep).
Notation rendered := (rendered dinit dstep).
Notation rendered_open := (rendered_open dinit dstep).
Notation sofar := (sofar dinit dstep).
Implicit Types w : writer.

(** ** Sticky errors *)
Lemma sticky_op s o w e n e' s' w' : wr_err w = Some e -> o <> OClose -> run_op s o w = WRet (n, e', s', w') ->
  n = 0 /\ e' = Some e /\ s' = s /\ w' = w.
Proof.
  intros He Ho. destruct o; cbn [SpecWriter.run_op];
    unfold write_line, write, flush, enable_zlib_level, disable_zlib; rewrite ?He; try (intros [= <- <- <- <-]; auto).
  congruence.
Qed.

Lemma sticky_returns s o w e : wr_err w = Some e -> o <> OClose -> run_op s o w = WRet (0, Some e, s, w).
Proof.
  intros He Ho. destruct o; cbn [SpecWriter.run_op];
    unfold write_line, write, flush, enable_zlib_level, disable_zlib; rewrite ?He; auto. congruence.
Qed.

Lemma close_err w e w' : close_writer dstep w = WRet (e, w') ->
  wr_err w' <> None /\ wr_open w' = false /\ (wr_err w <> None -> wr_err w' = wr_err w).
Proof.
  unfold close_writer. destruct (wr_open w); [|discriminate].
  destruct (bw_flush dstep w) as [[e1 w1]| |] eqn:Ef; try discriminate.
  apply bw_flush_frame in Ef. destruct Ef as ((_&_&_&_&_&_&_&F8&_) & _).
  set (w2 := match wr_err w1 with None => _ | Some _ => _ end).
  assert (H2 : wr_err w2 <> None /\ (wr_err w <> None -> wr_err w2 = wr_err w)).
  { unfold w2. destruct (wr_err w1) as [e0|] eqn:E; cbn; [split; congruence|].
    split; [discriminate|]. intros H. exfalso. congruence. }
  destruct (wr_zlib_on w2).
  - unfold zlib_do. destruct (wr_zw w2) as [z|]; [|discriminate].
    destruct (zw_do dstep DClose z (wr_conn w2)) as [[e3 z3] c3]. intros [= <- <-]. cbn. intuition.
  - intros [= <- <-]. cbn. intuition.
Qed.

Lemma err_sticky s o w n e s' w' : run_op s o w = WRet (n, e, s', w') -> wr_err w' = None -> wr_err w = None.
Proof.
  intros H H'. destruct (wr_err w) as [e0|] eqn:E; [|reflexivity]. exfalso.
  assert (o = OClose \/ o <> OClose) as [->|Ho] by (destruct o; auto; right; discriminate).
  - cbn in H. destruct (close_writer dstep w) as [[e1 w1]| |] eqn:Ec; try discriminate. injection H as _ _ _ <-.
    apply close_err in Ec. intuition congruence.
  - destruct (sticky_op _ _ _ _ _ _ _ _ E Ho H) as (_ & _ & _ & ->). congruence.
Qed.

(** ** Invariant of a writer without sticky error *)
Definition good (x : list section * section) w : Prop :=
  wr_open w = true /\ wr_err w = None /\ wr_berr w = None /\ wr_zlib_on w = wr_zcur w /\
  exists base lvl y, rendered_all (fst x) base /\ sofar base lvl w y /\
    snd x = (if wr_zcur w then SZlib lvl (y ++ wr_buf w) else SPlain (y ++ wr_buf w)).

Lemma contents_extend c d : contents (extend c d) = contents c ++ d.
Proof. now destruct c. Qed.

Lemma good_extend (w w' : writer) x d base lvl y y' : snd x = (if wr_zcur w then SZlib lvl (y ++ wr_buf w) else SPlain (y ++ wr_buf w)) ->
  wr_zcur w' = wr_zcur w -> y' ++ wr_buf w' = (y ++ wr_buf w) ++ d -> rendered_all (fst x) base -> sofar base lvl w' y' ->
  wr_open w' = true -> wr_err w' = None -> wr_berr w' = None -> wr_zlib_on w' = wr_zcur w' ->
  good (fst x, extend (snd x) d) w'.
Proof.
  intros Hc Hz Hy Hr Hs H1 H2 H3 H4. split; [exact H1|]. split; [exact H2|]. split; [exact H3|]. split; [exact H4|].
  exists base, lvl, y'. cbn [fst snd]. split; [exact Hr|]. split; [exact Hs|].
  rewrite Hc, Hz, Hy. now destruct (wr_zcur w).
Qed.

Lemma rendered_snoc xs c base b : rendered_all xs base -> rendered c b -> rendered_all (xs ++ [c]) (base ++ b).
Proof.
  intros (bs & H1 & ->) H2. exists (bs ++ [b]). split; [|rewrite concat_app; cbn; now rewrite app_nil_r].
  apply Forall2_app; auto.
Qed.

Definition allowed (o : wop) (n : nat) (e : option error) w : Prop :=
  (data_op o /\ wr_zcur w = false) \/ (no_failure (o, (n, e)) /\ hon w).

Lemma cur_write_good w w' x n e p d :
  good x w -> wr_buf w = [] -> cur_write dstep p w = WRet (n, e, w') -> (e = None \/ wr_zcur w = false) ->
  d = firstn n p -> good (fst x, extend (snd x) d) w' .
Proof.
  intros (G1 & G2 & G3 & G4 & base & lvl & y & G5 & G6 & G7) Hb Hc He ->.
  pose proof (cur_write_frame _ _ _ _ _ _ Hc) as ((F1&F2&F3&F4&F5&F6&F7&F8&F9) & Fb & Fe & _ & _).
  destruct (cur_write_ok dinit dstep base lvl p w y n e w' G6 Hc He) as [K _].
  eapply (good_extend w w' x _ base lvl y (y ++ firstn n p)); eauto; try congruence.
  rewrite Fb, Hb, !app_nil_r. reflexivity.
Qed.

Lemma step_good x s w o n e s' w' d : good x w -> run_op s o w = WRet (n, e, s', w') -> accepted (wr_hooks w) s o n e d ->
  allowed o n e w -> wr_err w' = None ->
  good (advance o e d x) w' /\ wr_hooks w' = wr_hooks w /\ (hon w -> hon w') /\ (data_op o -> wr_zcur w' = wr_zcur w) /\
  (o = OFlush -> e = None -> wr_buf w' = []).
Proof.
  intros G Hr Ha Hal He'. pose proof G as (G1 & G2 & G3 & G4 & base & lvl & y & G5 & G6 & G7).
  destruct o as [l|p| |lv| |]; cbn [SpecWriter.run_op] in Hr.
  - (* WriteLine *)
    rewrite write_line_put, G2 in Hr.
    destruct (run_hooks (wr_hooks w) s l) as [s1 v] eqn:Eh. destruct v as [| |er].
    + destruct (put dstep l w) as [[e1 w1]| |] eqn:Ep; try discriminate. injection Hr as <- <- <- <-.
      pose proof (put_ok dinit dstep base lvl w y e1 w1 l G6 G3 Ep) as K.
      destruct e1 as [e1|]; [destruct K; congruence|]. destruct K as (F & Kb & x' & K1 & K2).
      pose proof F as (F1&F2&F3&F4&F5&F6&F7&F8&F9).
      assert (d = l) as ->.
      { inversion Ha as [? ? ? Hv|? ? ? Hv|? ? ? | | | | |]; subst; [reflexivity|].
        apply verdict_run in Hv. congruence. }
      split; [|repeat split; auto; discriminate].
      cbn [advance]. eapply (good_extend w w1 x l base lvl y x'); eauto; try congruence. now rewrite <- app_assoc.
    + injection Hr as <- <- <- <-.
      assert (d = []) as ->.
      { inversion Ha as [? ? ? Hv|? ? ? Hv|? ? ? | | | | |]; subst; [|reflexivity]. apply verdict_run in Hv. congruence. }
      split; [|repeat split; auto; discriminate].
      cbn [advance]. eapply (good_extend w w x [] base lvl y y); eauto. now rewrite app_nil_r.
    + injection Hr as <- <- <- <-. discriminate.
  - (* Write *)
    destruct (write dstep p w) as [[[n1 e1] w1]| |] eqn:Ew; try discriminate. injection Hr as <- <- <- <-.
    assert (d = firstn n1 p) as -> by (inversion Ha; reflexivity).
    assert (Hz : e1 = None \/ wr_zcur w = false) by (destruct Hal as [[_ H]|[H _]]; auto).
    unfold write in Ew. rewrite G2 in Ew.
    destruct (wr_buf w) as [|b0 b] eqn:Eb.
    + pose proof (cur_write_frame _ _ _ _ _ _ Ew) as ((F1&F2&F3&F4&F5&F6&F7&F8&F9) & _).
      split; [|repeat split; auto; discriminate]. cbn [advance]. eapply cur_write_good; eauto.
    + destruct (flush dstep w) as [[[e2|] w2]| |] eqn:Ef; try discriminate.
      * injection Ew as <- <- <-. pose proof (flush_ok dinit dstep base lvl w y _ _ G6 G4 G2 Ef) as [K _]. congruence.
      * pose proof (flush_ok dinit dstep base lvl w y _ _ G6 G4 G2 Ef) as (K1 & K2 & K3 & K4).
        pose proof K2 as (F1&F2&F3&F4&F5&F6&F7&F8&F9).
        assert (G' : good x w2).
        { split; [congruence|]. split; [congruence|]. split; [congruence|]. split; [congruence|].
          exists base, lvl, (y ++ wr_buf w). split; [exact G5|]. split; [exact K1|].
          rewrite F4, K3, app_nil_r. rewrite G7, Eb. reflexivity. }
        pose proof (cur_write_frame _ _ _ _ _ _ Ew) as ((L1&L2&L3&L4&L5&L6&L7&L8&L9) & _).
        rewrite <- F4 in Hz. split; [cbn [advance]; eapply cur_write_good; eauto|].
        split; [congruence|]. split; [auto|]. split; [congruence|discriminate].
  - (* Flush *)
    destruct (flush dstep w) as [[e1 w1]| |] eqn:Ef; try discriminate. injection Hr as <- <- <- <-.
    pose proof (flush_ok dinit dstep base lvl w y _ _ G6 G4 G2 Ef) as K. destruct e1 as [e1|]; [destruct K; congruence|].
    destruct K as (K1 & K2 & K3 & K4). pose proof K2 as (F1&F2&F3&F4&F5&F6&F7&F8&F9).
    assert (d = []) as -> by (inversion Ha; reflexivity).
    split; [|repeat split; auto]. cbn [advance].
    eapply (good_extend w w1 x [] base lvl y (y ++ wr_buf w)); eauto; try congruence.
  - (* EnableZlib *)
    assert (Hlv : (-2 <= lv <= 9)%Z /\ hon w) by (destruct Hal as [[[] _]|H]; exact H). destruct Hlv as [Hlv Hh].
    destruct (enable_zlib_level dinit dstep lv w) as [[e1 w1]| |] eqn:Ef; try discriminate. injection Hr as <- <- <- <-.
    assert (d = []) as -> by (inversion Ha; reflexivity).
    unfold enable_zlib_level in Ef. rewrite G2 in Ef. destruct (wr_zlib_on w) eqn:Ez.
    + injection Ef as <- <-. split; [|repeat split; auto; try discriminate; intros []].
      cbn [advance]. eapply (good_extend w w x [] base lvl y y); eauto; try congruence. now rewrite app_nil_r.
    + destruct (flush dstep w) as [[[e2|] w2]| |] eqn:Efl; try discriminate.
      * injection Ef as <- <-. assert (Gz : wr_zlib_on w = wr_zcur w) by congruence.
        pose proof (flush_ok dinit dstep base lvl w y _ _ G6 Gz G2 Efl) as [K _]. congruence.
      * assert (Gz : wr_zlib_on w = wr_zcur w) by congruence.
        pose proof (flush_ok dinit dstep base lvl w y _ _ G6 Gz G2 Efl) as (K1 & K2 & K3 & K4).
        pose proof K2 as (F1&F2&F3&F4&F5&F6&F7&F8&F9).
        assert (Hl : level_ok lv = true) by (unfold level_ok; apply andb_true_iff; split; apply Z.leb_le; lia).
        rewrite Hl, andb_false_r in Ef. injection Ef as <- <-.
        split; [|split; [exact F2|]; split; [exact F9|]; split; [intros []|discriminate]].
        cbn [advance]. split; [exact (eq_trans F3 G1)|]. split; [exact (eq_trans F8 G2)|]. split; [reflexivity|]. split; [reflexivity|].
        cbn [wr_zcur with_buf with_zmode wr_buf fst snd].
        assert (Hzc : wr_zcur w2 = false) by congruence.
        inversion K1 as [? _ Hd|ops Hq]; [|congruence]. subst x0.
        exists (base ++ (y ++ wr_buf w)), lv, []. split; [|split; [|reflexivity]].
        { apply rendered_snoc; [exact G5|]. rewrite G7, <- G4. constructor. }
        apply (sf_zlib dinit dstep _ _ _ []); cbn; auto.
        { rewrite app_nil_r. exact Hd. }
  - (* DisableZlib *)
    assert (Hh : hon w) by (destruct Hal as [[[] _]|H]; apply H).
    destruct (disable_zlib dstep w) as [[e1 w1]| |] eqn:Ef; try discriminate. injection Hr as <- <- <- <-.
    assert (d = []) as -> by (inversion Ha; reflexivity).
    unfold disable_zlib in Ef. rewrite G2 in Ef. destruct (wr_zlib_on w) eqn:Ez.
    + destruct (bw_flush dstep w) as [[[e2|] w2]| |] eqn:Eb; cbn [checked] in Ef; try discriminate.
      { injection Ef as <- <-. discriminate. }
      pose proof (bw_flush_frame _ _ _ _ Eb) as ((F1&F2&F3&F4&F5&F6&F7&F8&F9) & _ & Fe & Fb).
      destruct (bw_flush_ok dinit dstep base lvl w y None w2 G6 Eb (or_introl eq_refl)) as (y' & K1 & K2).
      rewrite (Fb eq_refl), app_nil_r in K2.
      destruct (zlib_do dstep DClose w2) as [[[e3|] w3]| |] eqn:Ed; cbn [checked] in Ef; try discriminate.
      { injection Ef as <- <-. discriminate. }
      injection Ef as <- <-.
      assert (Hz2 : wr_zcur w2 = true) by congruence.
      destruct (zlib_do_ok dinit dstep base lvl w2 DClose y' w3 K1 Hz2 Ed) as (ops & N1 & N2 & N3 & N4 & N5 & N6 & N7 & N8 & N9).
      destruct N4 as (M1&M2&M3&M4&M5&M6&M7&M8&M9).
      split; [|split; [exact (eq_trans M2 F2)|]; split; [intros _; exact N3|]; split; [intros []|discriminate]].
      cbn [advance]. split; [exact (eq_trans M3 (eq_trans F3 G1))|]. split; [exact (eq_trans M8 (eq_trans F8 G2))|].
      split; [reflexivity|]. split; [reflexivity|]. cbn [wr_zcur with_buf with_zmode wr_buf fst snd].
      exists (base ++ snd (deflate dstep (dinit lvl) (ops ++ [DClose]))), 0%Z, []. split; [|split; [|reflexivity]].
      * apply rendered_snoc; [exact G5|]. rewrite G7, <- G4, <- K2, N1. now constructor.
      * apply sf_plain; [reflexivity|]. rewrite app_nil_r. exact N9.
    + injection Ef as <- <-. split; [|repeat split; auto; try discriminate; intros []].
      cbn [advance]. eapply (good_extend w w x [] base lvl y y); eauto; try congruence. now rewrite app_nil_r.
  - destruct Hal as [[[] _]|[[] _]].
Qed.

(** ** Fresh writers *)
Lemma fresh_fields script size hs tmo : let w := @fresh W dst script size hs tmo in
  wr_conn w = mkConn script [] /\ wr_open w = true /\ wr_zcur w = false /\ wr_buf w = [] /\ wr_berr w = None /\
  wr_err w = None /\ wr_zlib_on w = false /\ wr_hooks w = hs.
Proof.
  cbn. unfold fresh.
  assert (H : forall l w0, wr_hooks (fold_left (fun w h => on_write h w) l w0) = wr_hooks w0 ++ l /\
    (let w := fold_left (fun w h => on_write h w) l w0 in
     wr_conn w = wr_conn w0 /\ wr_open w = wr_open w0 /\ wr_zcur w = wr_zcur w0 /\ wr_buf w = wr_buf w0 /\ wr_berr w = wr_berr w0 /\
     wr_err w = wr_err w0 /\ wr_zlib_on w = wr_zlib_on w0)).
  { induction l as [|h l IH]; intros w0; cbn; [rewrite app_nil_r; repeat split; auto|].
    destruct (IH (on_write h w0)) as (A & B). rewrite A. cbn. rewrite <- app_assoc. split; [reflexivity|exact B]. }
  destruct (H hs (new_writer script size)) as (A & B1 & B2 & B3 & B4 & B5 & B6 & B7). cbn in *.
  destruct tmo; cbn; repeat split; auto.
Qed.

Lemma fresh_good script size hs tmo : good ([], SPlain []) (fresh script size hs tmo).
Proof.
  pose proof (fresh_fields script size hs tmo) as F. cbn in F. destruct F as (F1&F2&F3&F4&F5&F6&F7&F8).
  split; [exact F2|]. split; [exact F6|]. split; [exact F5|]. split; [congruence|].
  exists [], 0%Z, []. split; [exists []; split; [constructor|reflexivity]|]. split; [|rewrite F3, F4; reflexivity].
  apply sf_plain; [exact F3|]. unfold dlv. now rewrite F1.
Qed.

(** ** Histories *)
Lemma history_good w0 s0 h acc x s w : good ([], SPlain []) w0 -> history w0 s0 h acc x s w ->
  wr_err w = None ->
  (wr_zcur w0 = false /\ Forall (fun r => data_op (fst r)) h) \/ (hon w0 /\ Forall no_failure h) ->
  good x w /\ wr_hooks w = wr_hooks w0 /\
  ((wr_zcur w0 = false /\ Forall (fun r => data_op (fst r)) h) -> wr_zcur w = false) /\ (hon w0 -> hon w).
Proof.
  intros G0 H. induction H as [|h acc x s w o n e s' w' d H IH Hr Ha]; intros He Hc.
  - repeat split; auto; try apply G0. intros [H _]; exact H.
  - assert (He0 : wr_err w = None) by (eapply err_sticky; eauto).
    assert (Hc0 : (wr_zcur w0 = false /\ Forall (fun r => data_op (fst r)) h) \/ (hon w0 /\ Forall no_failure h)).
    { destruct Hc as [[H1 H2]|[H1 H2]]; apply Forall_app in H2; [left|right]; tauto. }
    destruct (IH He0 Hc0) as (G & Hh & Hz & Hon).
    assert (Hal : allowed o n e w).
    { destruct Hc as [[H1 H2]|[H1 H2]]; apply Forall_app in H2; destruct H2 as [H2 H3]; inversion H3; subst.
      - left. split; [assumption|]. apply Hz; auto.
      - right. split; [assumption|]. auto. }
    destruct (step_good x s w o n e s' w' d G Hr Ha Hal He) as (K1 & K2 & K3 & K4 & K5).
    split; [exact K1|]. split; [congruence|]. split; [|auto].
    intros [H1 H2]. apply Forall_app in H2. destruct H2 as [H2 H3]. inversion H3; subst. rewrite K4 by assumption. auto.
Qed.

(** Data of the sections = accepted data. *)
Lemma history_contents w0 s0 h acc x s w : history w0 s0 h acc x s w ->
  acc = concat (map contents (fst x)) ++ contents (snd x).
Proof.
  induction 1 as [|h acc x s w o n e s' w' d H IH Hr Ha]; [reflexivity|].
  assert (G : (o = OEnable match o with OEnable l => l | _ => 0%Z end \/ o = ODisable) /\ e = None -> d = []).
  { intros [[E|E] He]; destruct o; try discriminate E; inversion Ha; reflexivity. }
  assert (Hx : advance o e d x = (fst x, extend (snd x) d) \/
    (d = [] /\ exists c, advance o e d x = (fst x ++ [snd x], c) /\ contents c = [])).
  { destruct o; cbn; auto; destruct e; auto; right; (split; [apply G; auto|]); eauto. }
  destruct Hx as [->|(-> & c & -> & Hc)]; cbn [fst snd].
  - rewrite contents_extend, IH, app_assoc. reflexivity.
  - rewrite Hc, map_app, concat_app, IH. cbn. now rewrite !app_nil_r.
Qed.

Lemma history_data_sections w0 s0 h acc x s w : history w0 s0 h acc x s w -> Forall (fun r => data_op (fst r)) h ->
  x = ([], SPlain acc).
Proof.
  induction 1 as [|h acc x s w o n e s' w' d H IH Hr Ha]; intros Hf; [reflexivity|].
  apply Forall_app in Hf. destruct Hf as [H1 H2]. inversion H2 as [|? ? Ho]; subst. rewrite (IH H1).
  destruct o; cbn in *; try contradiction; reflexivity.
Qed.

Lemma history_snoc w0 s0 h o n e acc x s w : history w0 s0 (h ++ [(o, (n, e))]) acc x s w ->
  exists acc0 x0 s1 w1 d, history w0 s0 h acc0 x0 s1 w1 /\ run_op s1 o w1 = WRet (n, e, s, w) /\
    accepted (wr_hooks w1) s1 o n e d /\ acc = acc0 ++ d /\ x = advance o e d x0.
Proof.
  intros H. remember (h ++ [(o, (n, e))]) as h' eqn:E. destruct H as [|h1 acc1 x1 s1 w1 o1 n1 e1 s' w' d H Hr Ha]; [now destruct h|].
  apply app_inj_tail in E. destruct E as [-> [= -> -> ->]]. do 5 eexists. eauto.
Qed.

(** C09 *)
Theorem in_order script size hs tmo s0 h acc x s w :
  history (fresh script size hs tmo) s0 h acc x s w -> Forall (fun r => data_op (fst r)) h -> wr_err w = None ->
  exists pending, acc = delivered (cn_trace (wr_conn w)) ++ pending /\
    (forall h' n, h = h' ++ [(OFlush, (n, None))] -> pending = []).
Proof.
  intros H Hd He. pose proof (fresh_fields script size hs tmo) as F. cbn in F. destruct F as (F1&F2&F3&F4&F5&F6&F7&F8).
  assert (Hor : (wr_zcur (fresh script size hs tmo : writer) = false /\ Forall (fun r => data_op (fst r)) h) \/
                (hon (fresh script size hs tmo : writer) /\ Forall no_failure h)) by (left; auto).
  destruct (history_good _ _ _ _ _ _ _ (fresh_good script size hs tmo) H He Hor) as (G & _ & Gz & _).
  rewrite (history_data_sections _ _ _ _ _ _ _ H Hd) in G.
  destruct G as (_ & _ & _ & _ & base & lvl & y & (bs & R1 & R2) & Gs & Gc). cbn [fst snd] in *.
  rewrite (Gz (conj F3 Hd)) in Gc. injection Gc as Gc.
  inversion R1; subst bs. cbn in R2. subst base.
  inversion Gs as [? _ Hy|ops Hq]; [|rewrite Gz in Hq; [discriminate|auto]]. cbn in Hy. subst x0.
  exists (wr_buf w). split; [unfold dlv in Hy; congruence|].
  intros h' n ->. apply history_snoc in H. destruct H as (acc0 & x0 & s1 & w1 & d & H' & Hr & Ha & _).
  apply Forall_app in Hd. destruct Hd as [Hd _].
  assert (He1 : wr_err w1 = None) by (eapply err_sticky; eauto).
  destruct (history_good _ _ _ _ _ _ _ (fresh_good script size hs tmo) H' He1 (or_introl (conj F3 Hd))) as (G' & _ & Gz' & _).
  assert (Hal : allowed OFlush n None w1) by (left; split; [exact I|now apply Gz']).
  destruct (step_good _ _ _ _ _ _ _ _ _ G' Hr Ha Hal He) as (_ & _ & _ & _ & K5). now apply K5.
Qed.
End Ops.
