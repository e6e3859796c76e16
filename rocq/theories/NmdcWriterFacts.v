(** Lemmas about the NMDC message writer. *)
From Verif Require Import Base BaseFacts NmdcText NmdcMessage LineReader LineWriter SpecWriter LineWriterFacts LineWriterOps LineWriterFinal LineTransport
  NmdcReader NmdcWriter SpecNmdcWriter.

Section Facts.
Context {W dst : Type} (dinit : Z -> dst) (dstep : dst -> dop -> dst * list bytes) (junk : msg -> bytes).
Notation writer := (writer W dst).
Notation nwriter := (nwriter W dst).

Lemma run_msg_verdict : forall hs (s : W) m s' m' v, run_msgs hs (s, m) = ((s', m'), v) -> mverdict hs s m s' m' v.
Proof.
  induction hs as [|h hs IH]; intros s m s' m' v H; cbn in H; [injection H as <- <- <-; constructor|].
  destruct (h (s, m)) as [[s1 m1] [| |e]] eqn:E.
  - eapply mv_pass; eauto.
  - injection H as <- <- <-. eapply mv_stop; [exact E|discriminate].
  - injection H as <- <- <-. eapply mv_stop; [exact E|discriminate].
Qed.
Lemma verdict_run_msg hs (s : W) m s' m' v : mverdict hs s m s' m' v -> run_msgs hs (s, m) = ((s', m'), v).
Proof.
  induction 1 as [w m|h hs w m w1 m1 w2 m2 v E _ IH|h hs w m w1 m1 v E N]; cbn; [reflexivity| |]; rewrite E; [exact IH|].
  now destruct v.
Qed.

(** Hooks of the line writer never change (except on Close). *)
Definition hks (r : wout (option error * writer)) (w : writer) : Prop :=
  match r with WRet (_, w') => wr_hooks w' = wr_hooks w | _ => True end.
Lemma zlib_do_hks o (w : writer) : hks (zlib_do dstep o w) w.
Proof. unfold zlib_do. destruct (wr_zw w); [|exact I]. destruct (zw_do dstep o z (wr_conn w)) as [[e z'] c']. reflexivity. Qed.
Lemma cur_write_hks p (w : writer) n e w' : cur_write dstep p w = WRet (n, e, w') -> wr_hooks w' = wr_hooks w.
Proof.
  unfold cur_write. destruct (wr_zcur w).
  - pose proof (zlib_do_hks (DWrite p) w) as H. destruct (zlib_do dstep (DWrite p) w) as [[[e1|] w1]| |]; intros E; try discriminate; injection E as <- <- <-; exact H.
  - destruct (conn_write p (wr_conn w)) as [[n1 e1] c']. intros E. injection E as <- <- <-. reflexivity.
Qed.
Lemma bw_flush_hks w : hks (bw_flush dstep w) w.
Proof.
  unfold bw_flush. destruct (wr_berr w); [reflexivity|]. destruct (wr_buf w) as [|b0 b]; [reflexivity|].
  destruct (cur_write dstep (b0 :: b) w) as [[[n e] w1]| |] eqn:E; [|exact I|exact I]. apply cur_write_hks in E.
  destruct e as [e|]; [exact E|]. destruct (n <? length (b0 :: b))%nat; exact E.
Qed.
Lemma bw_loop_hks : forall f p w, hks (bw_loop dstep f p w) w.
Proof.
  induction f as [|f IH]; intros p w; cbn [bw_loop]; destruct (wr_berr w); try reflexivity;
    destruct (length p <=? wr_size w - length (wr_buf w))%nat; try reflexivity; try exact I.
  destruct (wr_buf w) as [|b0 b].
  - destruct (cur_write dstep p w) as [[[n e] w1]| |] eqn:E; try exact I. apply cur_write_hks in E.
    pose proof (IH (skipn n p) (with_buf [] e w1)) as H. destruct (bw_loop dstep f (skipn n p) (with_buf [] e w1)) as [[e2 w2]| |]; try exact I. cbn in *. congruence.
  - set (b1 := with_buf ((b0 :: b) ++ firstn (wr_size w - length (b0 :: b)) p) None w). pose proof (bw_flush_hks b1) as F.
    destruct (bw_flush dstep b1) as [[e1 w1]| |]; try exact I.
    set (q := skipn _ p). pose proof (IH q w1) as H. destruct (bw_loop dstep f q w1) as [[e2 w2]| |]; try exact I. cbn in *. congruence.
Qed.
Lemma checked_hks r k w : hks r w -> (forall w1, hks (k w1) w1) -> hks (checked r k) w.
Proof.
  intros Hr Hk. destruct r as [[[e|] w1]| |]; try exact I; cbn [checked]; [exact Hr|].
  specialize (Hk w1). destruct (k w1) as [[e2 w2]| |]; try exact I. cbn in *. congruence.
Qed.
Lemma timed_hks body w : (forall w1, hks (body w1) w1) -> hks (timed body w) w.
Proof.
  intros Hb. unfold timed. destruct (wr_timeout w); [|apply Hb]. destruct (hd None (wr_treplies w)); [reflexivity|].
  set (w1 := with_treplies _ _). specialize (Hb w1). destruct (body w1) as [[e2 w2]| |]; try exact I. exact Hb.
Qed.
Lemma flush_hks w : hks (flush dstep w) w.
Proof.
  unfold flush. destruct (wr_err w); [reflexivity|]. apply timed_hks. intros w1. apply checked_hks; [apply bw_flush_hks|].
  intros w2. destruct (wr_zlib_on w2); [|reflexivity]. apply checked_hks; [apply zlib_do_hks|reflexivity].
Qed.
Lemma enable_hks lvl w : hks (enable_zlib_level dinit dstep lvl w) w.
Proof.
  unfold enable_zlib_level. destruct (wr_err w); [reflexivity|]. destruct (wr_zlib_on w); [reflexivity|].
  pose proof (flush_hks w) as F. destruct (flush dstep w) as [[[e|] w1]| |]; try exact I; [exact F|].
  cbv zeta. destruct (_ && _)%bool; exact F.
Qed.
Lemma disable_hks w : hks (disable_zlib dstep w) w.
Proof.
  unfold disable_zlib. destruct (wr_err w); [reflexivity|]. destruct (wr_zlib_on w); [|reflexivity].
  apply checked_hks; [apply bw_flush_hks|]. intros w1. apply checked_hks; [apply zlib_do_hks|reflexivity].
Qed.

(** Without line hooks the hook state does not matter. *)
Lemma line_stateless (s s1 : W) d (w : writer) e s' w' : wr_hooks w = [] -> write_line dstep s d w = WRet (e, s', w') ->
  s' = s /\ write_line dstep s1 d w = WRet (e, s1, w') /\ wr_hooks w' = [] /\ (wr_err w' = None -> e = None).
Proof.
  intros Hh H. unfold write_line in *. destruct (wr_err w) as [e0|] eqn:Ee.
  - injection H as <- <- <-. repeat split; auto. congruence.
  - rewrite Hh in *. cbn [run_hooks] in *.
    set (body := fun w1 => checked (bw_write dstep d w1) (fun w2 => WRet (None, w2))) in *.
    assert (HK : hks (timed body w) w).
    { apply timed_hks. intros w1. apply checked_hks; [apply bw_loop_hks|reflexivity]. }
    destruct (timed body w) as [[e1 w1]| |] eqn:Et; try discriminate. injection H as <- <- <-.
    split; [reflexivity|]. split; [reflexivity|]. split; [cbn in HK; congruence|].
    intros He. destruct e1 as [e1|]; [|reflexivity]. exfalso.
    assert (X : wr_err w1 = Some e1); [|congruence].
    eapply timed_fails; [|exact Et]. unfold body. intros w2 e2 w3 K. eapply checked_fails; [|exact K]. intros; discriminate.
Qed.

Lemma history_app_line w0 (s0 : W) h acc x w f w' : history dinit dstep w0 s0 h acc x s0 w -> wr_hooks w = [] ->
  write_line dstep s0 f w = WRet (None, s0, w') ->
  history dinit dstep w0 s0 (h ++ [(OLine f, (0, None))]) (acc ++ f) (advance (OLine f) None f x) s0 w'.
Proof.
  intros H Hh E. eapply h_step; [exact H| |].
  - cbn [run_op]. now rewrite E.
  - eapply ac_pass. rewrite Hh. constructor.
Qed.

Definition done (ops : list wop) : list (wop * (nat * option error)) := map (fun o => (o, (0, None))) ops.
Lemma done_app a b : done (a ++ b) = done a ++ done b. Proof. apply map_app. Qed.
Lemma op_sections_app : forall a b x, op_sections (a ++ b) x = op_sections b (op_sections a x).
Proof. induction a as [|o a IH]; intros b x; [reflexivity|]. cbn. apply IH. Qed.
Lemma op_lines_app a b : op_lines (a ++ b) = op_lines a ++ op_lines b. Proof. apply flat_map_app. Qed.
Lemma op_lines_map fs : op_lines (map OLine fs) = fs.
Proof. induction fs as [|f fs IH]; [reflexivity|]. cbn. now rewrite <- IH at 2. Qed.

(** [reached ops]: the line writer is in the state after the given successful operations. *)
Definition reached (w0 : writer) (s0 : W) (ops : list wop) (w : writer) : Prop :=
  history dinit dstep w0 s0 (done ops) (concat (op_lines ops)) (op_sections ops ([], SPlain [])) s0 w /\ wr_hooks w = [].

Lemma reached_line w0 s0 ops w f (s : W) w' : reached w0 s0 ops w -> write_line dstep s f w = WRet (None, s, w') ->
  reached w0 s0 (ops ++ [OLine f]) w'.
Proof.
  intros [H Hh] E. destruct (line_stateless s s0 f w None s w' Hh E) as (_ & E' & H' & _). split; [|exact H'].
  rewrite done_app, op_lines_app, concat_app, op_sections_app. cbn. rewrite app_nil_r. apply (history_app_line w0 s0 _ _ _ w); auto.
Qed.
Lemma reached_lift w0 s0 ops w (o : wop) w' : reached w0 s0 ops w -> run_op dinit dstep s0 o w = WRet (0, None, s0, w') ->
  (forall d, o <> OLine d) -> (forall p, o <> OWrite p) -> wr_hooks w' = [] -> reached w0 s0 (ops ++ [o]) w'.
Proof.
  intros [H Hh] E N1 N2 Hh'. split; [|exact Hh'].
  rewrite done_app, op_lines_app, concat_app, op_sections_app.
  assert (X : op_lines [o] = []) by (destruct o; try reflexivity; exfalso; eapply N1; reflexivity). rewrite X.
  assert (Y : op_sections [o] (op_sections ops ([], SPlain [])) = advance o None [] (op_sections ops ([], SPlain [])))
    by (destruct o; try reflexivity; exfalso; eapply N1; reflexivity). rewrite Y.
  cbn [concat done map]. eapply h_step; [exact H|exact E|]. destruct o as [d|p| | | |]; [destruct (N1 d eq_refl)|destruct (N2 p eq_refl)|constructor..].
Qed.

Lemma err_mono_line (s : W) d (w : writer) e s' w' : write_line dstep s d w = WRet (e, s', w') -> wr_err w' = None -> wr_err w = None.
Proof.
  intros H. assert (R : run_op dinit dstep s (OLine d) w = WRet (0, e, s', w')) by (cbn; now rewrite H). exact (err_sticky dinit dstep _ _ _ _ _ _ _ R).
Qed.

Lemma write_each_err enc : forall ms (s : W) (x : nwriter) e s' x', write_each dstep junk enc s ms x = WRet (e, s', x') -> wr_err (nw_line x') = None -> wr_err (nw_line x) = None.
Proof.
  induction ms as [|m ms IH]; intros s x e s' x' H He; cbn [write_each] in H.
  - now injection H as <- <- <-.
  - destruct (run_msgs (nw_msg x) (s, m)) as [[s1 m1] [| |e1]]; [|now injection H as <- <- <-..].
    destruct (marshal_to enc (nw_mbuf (with_mbuf [] x)) m1) as [b|e1|]; [|now injection H as <- <- <-|discriminate].
    unfold nw_write_line in H. cbn [nw_line with_mbuf] in H. destruct (write_line dstep s1 b (nw_line x)) as [[[[e2|] s2] w2]| |] eqn:E; try discriminate.
    + injection H as <- <- <-. eapply err_mono_line; eauto.
    + eapply err_mono_line; [exact E|]. exact (IH _ _ _ _ _ H He).
Qed.

Lemma write_each_reached enc w0 s0 : forall ms (s : W) (x : nwriter) e s' x' ops,
  write_each dstep junk enc s ms x = WRet (e, s', x') -> wr_err (nw_line x') = None -> reached w0 s0 ops (nw_line x) ->
  exists fs, taken (nw_msg x) enc s ms fs s' e /\ reached w0 s0 (ops ++ map OLine fs) (nw_line x') /\ nw_msg x' = nw_msg x /\ nw_enc x' = nw_enc x.
Proof.
  induction ms as [|m ms IH]; intros s x e s' x' ops H He R; cbn [write_each] in H.
  - injection H as <- <- <-. exists []. split; [constructor|]. cbn. now rewrite app_nil_r.
  - destruct (run_msgs (nw_msg x) (s, m)) as [[s1 m1] [| |e1]] eqn:Ev; apply run_msg_verdict in Ev.
    2:{ injection H as <- <- <-. exists []. split; [eapply tk_drop; exact Ev|]. cbn. now rewrite app_nil_r. }
    2:{ injection H as <- <- <-. exists []. split; [eapply tk_err; exact Ev|]. cbn. now rewrite app_nil_r. }
    cbn [nw_mbuf with_mbuf] in H. destruct (marshal_to enc [] m1) as [b|e1|] eqn:Em; [| |discriminate].
    2:{ injection H as <- <- <-. exists []. split; [now apply tk_bad with (1 := Ev)|]. cbn. now rewrite app_nil_r. }
    unfold nw_write_line in H. cbn [nw_line with_mbuf] in H.
    destruct (write_line dstep s1 b (nw_line x)) as [[[e2 s2] w2]| |] eqn:E; try discriminate.
    destruct (line_stateless s1 s0 b _ _ _ _ (proj2 R) E) as (-> & _ & _ & Hne).
    assert (e2 = None) as ->.
    { apply Hne. destruct e2 as [e2|]; [now injection H as <- <- <-|]. exact (write_each_err enc _ _ _ _ _ _ H He). }
    destruct (IH s1 (with_line w2 (with_mbuf b (with_mbuf [] x))) e s' x' (ops ++ [OLine b]) H He (reached_line _ _ _ _ _ _ _ R E)) as (fs & K1 & K2 & K3 & K4).
    exists (b :: fs). split; [eapply tk_pass; eauto|]. cbn [map]. rewrite <- app_assoc in K2. auto.
Qed.

Lemma run_nop_err (s : W) o (x : nwriter) e s' x' : run_nop dinit dstep junk s o x = WRet (e, s', x') -> wr_err (nw_line x') = None -> wr_err (nw_line x) = None.
Proof.
  destruct o; cbn [run_nop]; intros H He.
  - unfold write_msg in H. destruct (wr_err (nw_line x)) eqn:E; [injection H as <- <- <-; congruence|reflexivity].
  - unfold write_keep_alive, nw_write_line in H. destruct (write_line dstep s [delimiter] (nw_line x)) as [[[e2 s2] w2]| |] eqn:E; try discriminate.
    injection H as <- <- <-. eapply err_mono_line; eauto.
  - destruct (flush dstep (nw_line x)) as [[e2 w2]| |] eqn:E; try discriminate. injection H as <- <- <-.
    apply (err_sticky dinit dstep s OFlush _ 0 e2 s w2); [cbn; now rewrite E|exact He].
  - now injection H as <- <- <-.
  - unfold zon_level, nw_write_line in H. destruct (write_line dstep s _ (nw_line x)) as [[[[e2|] s2] w2]| |] eqn:E; try discriminate.
    + injection H as <- <- <-. eapply err_mono_line; eauto.
    + eapply err_mono_line; [exact E|]. cbn [with_line nw_line] in H. destruct (enable_zlib_level dinit dstep lvl w2) as [[e3 w3]| |] eqn:E3; try discriminate.
      injection H as <- <- <-. apply (err_sticky dinit dstep s (OEnable lvl) _ 0 e3 s w3); [cbn; now rewrite E3|exact He].
  - destruct (disable_zlib dstep (nw_line x)) as [[e2 w2]| |] eqn:E; try discriminate. injection H as <- <- <-.
    apply (err_sticky dinit dstep s ODisable _ 0 e2 s w2); [cbn; now rewrite E|exact He].
Qed.
Lemma nruns_err (s : W) (x : nwriter) h s' x' : nruns dinit dstep junk s x h s' x' -> wr_err (nw_line x') = None -> wr_err (nw_line x) = None.
Proof. induction 1; auto. intros He. eapply run_nop_err; eauto. Qed.

Theorem nruns_reached w0 s0 s x h s' x' : nruns dinit dstep junk s x h s' x' -> forall ops,
  wr_err (nw_line x') = None -> Forall switch_ok h -> reached w0 s0 ops (nw_line x) ->
  exists ops2, explained (nw_msg x) (nw_enc x) s h ops2 s' /\ reached w0 s0 (ops ++ ops2) (nw_line x').
Proof.
  induction 1 as [s x|s x o e s1 x1 h s2 x2 Hr Hn IH]; intros ops He Hz R.
  - exists []. rewrite app_nil_r. split; [constructor|exact R].
  - inversion Hz as [|? ? Hz1 Hz2]; subst. pose proof (nruns_err _ _ _ _ _ Hn He) as He1.
    pose proof (run_nop_err _ _ _ _ _ _ Hr He1) as He0.
    destruct o; cbn [run_nop] in Hr.
    + unfold write_msg in Hr. rewrite He0 in Hr.
      destruct (write_each_reached _ w0 s0 _ _ _ _ _ _ ops Hr He1 R) as (fs & K1 & K2 & K3 & K4).
      destruct (IH _ He Hz2 K2) as (ops2 & L1 & L2). rewrite K3, K4 in L1. exists (map OLine fs ++ ops2).
      rewrite <- app_assoc in L2. split; [econstructor; eauto|exact L2].
    + unfold write_keep_alive, nw_write_line in Hr. destruct (write_line dstep s [delimiter] (nw_line x)) as [[[e2 s3] w2]| |] eqn:E; try discriminate.
      injection Hr as <- <- <-. destruct (line_stateless s s0 _ _ _ _ _ (proj2 R) E) as (-> & _ & _ & Hne). rewrite (Hne He1) in *.
      destruct (IH _ He Hz2 (reached_line _ _ _ _ _ _ _ R E)) as (ops2 & L1 & L2). exists (OLine (B "|") :: ops2).
      rewrite <- app_assoc in L2. split; [now constructor|exact L2].
    + pose proof (flush_hks (nw_line x)) as HK. destruct (flush dstep (nw_line x)) as [[e2 w2]| |] eqn:E; try discriminate. injection Hr as <- <- <-.
      assert (e2 = None) as ->.
      { destruct e2 as [e2|]; [|reflexivity]. apply flush_fails in E. cbn in He1. congruence. }
      assert (R2 : reached w0 s0 (ops ++ [OFlush]) w2).
      { apply (reached_lift _ _ _ _ _ _ R); [cbn; now rewrite E|discriminate|discriminate|]. cbn in HK. rewrite HK. apply R. }
      destruct (IH _ He Hz2 R2) as (ops2 & L1 & L2). exists (OFlush :: ops2). rewrite <- app_assoc in L2. split; [now constructor|exact L2].
    + injection Hr as <- <- <-. destruct (IH _ He Hz2 R) as (ops2 & L1 & L2). exists ops2. split; [now constructor|exact L2].
    + cbn in Hz1. destruct Hz1 as [_ ->]. unfold zon_level, nw_write_line in Hr.
      destruct (write_line dstep s _ (nw_line x)) as [[[[e2|] s3] w2]| |] eqn:E; try discriminate.
      destruct (line_stateless s s0 _ _ _ _ _ (proj2 R) E) as (-> & _ & _ & _). pose proof (reached_line _ _ _ _ _ _ _ R E) as R1.
      cbn [with_line nw_line] in Hr. pose proof (enable_hks lvl w2) as HK.
      destruct (enable_zlib_level dinit dstep lvl w2) as [[e3 w3]| |] eqn:E3; try discriminate. injection Hr as -> <- <-.
      assert (R2 : reached w0 s0 ((ops ++ [OLine (B "$" ++ zon_name ++ B "|")]) ++ [OEnable lvl]) w3).
      { apply (reached_lift _ _ _ _ _ _ R1); [cbn; now rewrite E3|discriminate|discriminate|]. cbn in HK. rewrite HK. apply R1. }
      destruct (IH _ He Hz2 R2) as (ops2 & L1 & L2). exists (OLine (B "$ZOn|") :: OEnable lvl :: ops2). rewrite <- !app_assoc in L2.
      split; [now constructor|exact L2].
    + cbn in Hz1. subst e. pose proof (disable_hks (nw_line x)) as HK. destruct (disable_zlib dstep (nw_line x)) as [[e2 w2]| |] eqn:E; try discriminate. injection Hr as -> <- <-.
      assert (R2 : reached w0 s0 (ops ++ [ODisable]) w2).
      { apply (reached_lift _ _ _ _ _ _ R); [cbn; now rewrite E|discriminate|discriminate|]. cbn in HK. rewrite HK. apply R. }
      destruct (IH _ He Hz2 R2) as (ops2 & L1 & L2). exists (ODisable :: ops2). rewrite <- app_assoc in L2. split; [now constructor|exact L2].
Qed.

Lemma nfresh_fields script size tmo enc hs : let x := @nfresh W dst script size tmo enc hs in
  nw_line x = fresh script size [] tmo /\ nw_enc x = enc /\ nw_msg x = hs.
Proof.
  cbv zeta. unfold nfresh.
  assert (G : forall hs (y : nwriter), let x := fold_left (fun x h => on_message h x) hs y in nw_line x = nw_line y /\ nw_msg x = nw_msg y ++ hs).
  { clear. induction hs as [|h hs IH]; intros y; cbn [fold_left]; [now rewrite app_nil_r|]. destruct (IH (on_message h y)) as [H1 H2].
    split; [exact H1|]. rewrite H2. cbn. now rewrite <- app_assoc. }
  destruct (G hs (with_line (fresh script size [] tmo) (new_nwriter script size))) as [H1 H2]. auto.
Qed.
Lemma fresh_reached script size tmo (s0 : W) : reached (fresh script size [] tmo) s0 [] (fresh script size [] tmo).
Proof.
  split; [constructor|]. destruct (fresh_fields (W:=W) (dst:=dst) script size [] tmo) as (_&_&_&_&_&_&_&F8). exact F8.
Qed.

Theorem nfresh_reached script size tmo enc hs s0 h s x :
  nruns dinit dstep junk s0 (nfresh script size tmo enc hs) h s x -> wr_err (nw_line x) = None -> Forall switch_ok h ->
  exists ops, explained hs enc s0 h ops s /\ reached (fresh script size [] tmo) s0 ops (nw_line x).
Proof.
  intros H He Hz. destruct (nfresh_fields script size tmo enc hs) as (F1 & F2 & F3).
  destruct (nruns_reached (fresh script size [] tmo) s0 _ _ _ _ _ H [] He Hz) as (ops & K1 & K2).
  - rewrite F1. apply fresh_reached.
  - rewrite F2, F3 in K1. eauto.
Qed.
End Facts.
