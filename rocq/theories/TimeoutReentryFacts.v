(** Proofs about a Timeout callback that calls the writer it belongs to. *)
From Verif Require Import Base LineReader LineWriter SpecWriter SpecWriterReentry LineWriterFacts WriterReentryFacts TimeoutReentry SpecTimeoutReentry.

(** ** The fields without the callbacks *)
Section Bare.
Context {A dst : Type} (dinit : Z -> dst) (dstep : dst -> dop -> dst * list bytes).
Notation R := (@bare A dst).
Lemma cur_write_bare p w : cur_write dstep p (R w) = lift_d R (cur_write dstep p w).
Proof.
  unfold cur_write, zlib_do. cbn [wr_zcur wr_zw wr_conn bare]. destruct (wr_zcur w).
  - destruct (wr_zw w) as [z|]; [|reflexivity]. destruct (zw_do dstep (DWrite p) z (wr_conn w)) as [[[e|] z'] c']; reflexivity.
  - destruct (conn_write p (wr_conn w)) as [[n e] c']. reflexivity.
Qed.
Lemma zlib_do_bare o w : zlib_do dstep o (R w) = lift_d R (zlib_do dstep o w).
Proof.
  unfold zlib_do. cbn [wr_zw wr_conn bare]. destruct (wr_zw w) as [z|]; [|reflexivity].
  destruct (zw_do dstep o z (wr_conn w)) as [[e z'] c']; reflexivity.
Qed.
Lemma bw_flush_bare w : bw_flush dstep (R w) = lift_d R (bw_flush dstep w).
Proof.
  unfold bw_flush. cbn [wr_berr wr_buf bare]. destruct (wr_berr w); [reflexivity|]. destruct (wr_buf w) as [|b t]; [reflexivity|].
  fold (R w). rewrite cur_write_bare. destruct (cur_write dstep (b :: t) w) as [[[n e] w']| |]; cbn [lift_d]; try reflexivity.
  destruct e as [e|]; [reflexivity|]. destruct (n <? _)%nat; reflexivity.
Qed.
Lemma bw_loop_bare : forall fuel p w, bw_loop dstep fuel p (R w) = lift_d R (bw_loop dstep fuel p w).
Proof.
  induction fuel as [|f IH]; intros p w; cbn [bw_loop]; change (wr_berr (R w)) with (wr_berr w); change (wr_size (R w)) with (wr_size w); change (wr_buf (R w)) with (wr_buf w);
    (destruct (wr_berr w); [reflexivity|]); cbv zeta; (destruct (length p <=? _)%nat; [reflexivity|]); [reflexivity|].
  destruct (wr_buf w) as [|b t].
  - rewrite cur_write_bare. destruct (cur_write dstep p w) as [[[n e] w']| |]; cbn [lift_d]; try reflexivity.
    change (with_buf [] e (R w')) with (R (with_buf [] e w')). apply IH.
  - match goal with |- context [bw_flush dstep (with_buf ?q None (R w))] => change (with_buf q None (R w)) with (R (with_buf q None w)) end.
    rewrite bw_flush_bare. destruct (bw_flush dstep _) as [[e w']| |]; cbn [lift_d]; try reflexivity. apply IH.
Qed.
Lemma bw_write_bare p w : bw_write dstep p (R w) = lift_d R (bw_write dstep p w).
Proof. unfold bw_write. change (wr_conn (R w)) with (wr_conn w). apply bw_loop_bare. Qed.
Lemma checked_bare (r : wout (option error * writer A dst)) k k' : (forall w, k' (R w) = lift_d R (k w)) -> checked (lift_d R r) k' = lift_d R (checked r k).
Proof. intros H. destruct r as [[[e|] w]| |]; cbn; auto. Qed.
(** The parts behind Timeout(true). *)
Definition fbody (w : writer A dst) := checked (bw_flush dstep w) (fun w2 => if wr_zlib_on w2 then checked (zlib_do dstep DFlush w2) (fun w3 => WRet (None, w3)) else WRet (None, w2)).
Definition lbody d (w : writer A dst) := checked (bw_write dstep d w) (fun w2 => WRet (None, w2)).
Lemma fbody_bare (w : writer A dst) : wr_open w = true -> flush_body dstep (R w) = lift_d R (fbody w).
Proof.
  intros O. unfold flush_body, fbody. change (wr_open (R w)) with (wr_open w). rewrite O, bw_flush_bare. apply checked_bare. intros y.
  change (wr_zlib_on (R y)) with (wr_zlib_on y). destruct (wr_zlib_on y); [|reflexivity]. rewrite zlib_do_bare. apply checked_bare. reflexivity.
Qed.
Lemma lbody_bare d (w : writer A dst) : wr_open w = true -> line_body dstep d (R w) = lift_d R (lbody d w).
Proof. intros O. unfold line_body, lbody. change (wr_open (R w)) with (wr_open w). rewrite O, bw_write_bare. apply checked_bare. reflexivity. Qed.
Lemma disable_bare w : disable_zlib dstep (R w) = lift_d R (disable_zlib dstep w).
Proof.
  unfold disable_zlib. change (wr_err (R w)) with (wr_err w). change (wr_zlib_on (R w)) with (wr_zlib_on w). destruct (wr_err w); [reflexivity|]. destruct (wr_zlib_on w); [|reflexivity].
  rewrite bw_flush_bare. apply checked_bare. intros y. rewrite zlib_do_bare. apply checked_bare. reflexivity.
Qed.
Lemma close_bare w : close_writer dstep (R w) = lift_d R (close_writer dstep w).
Proof.
  unfold close_writer. change (wr_open (R w)) with (wr_open w). destruct (wr_open w); [|reflexivity]. rewrite bw_flush_bare.
  destruct (bw_flush dstep w) as [[l w1]| |]; try reflexivity. cbn [lift_d]. cbv zeta. change (wr_err (R w1)) with (wr_err w1).
  set (w2 := match wr_err w1 with None => set_error err_writer_closed w1 | Some _ => w1 end).
  replace (match wr_err w1 with None => set_error err_writer_closed (R w1) | Some _ => R w1 end) with (R w2) by (subst w2; destruct (wr_err w1); reflexivity).
  change (wr_zlib_on (R w2)) with (wr_zlib_on w2). destruct (wr_zlib_on w2); [|reflexivity]. rewrite zlib_do_bare. destruct (zlib_do dstep DClose w2) as [[e w3]| |]; reflexivity.
Qed.

(** Nothing but Timeout takes answers of the list. *)
Lemma zlib_do_replies o (w : writer A dst) e y : zlib_do dstep o w = WRet (e, y) -> wr_treplies y = wr_treplies w.
Proof. unfold zlib_do. destruct (wr_zw w); [|discriminate]. destruct (zw_do dstep o _ _) as [[e1 z'] c']. intros E. now injection E as <- <-. Qed.
Lemma cur_write_replies p (w : writer A dst) a y : cur_write dstep p w = WRet (a, y) -> wr_treplies y = wr_treplies w.
Proof.
  unfold cur_write. destruct (wr_zcur w).
  - destruct (zlib_do dstep (DWrite p) w) as [[[e|] z]| |] eqn:E; try discriminate; intros H; injection H as <- <-; exact (zlib_do_replies _ _ _ _ E).
  - destruct (conn_write p (wr_conn w)) as [[n e] c']. intros H. now injection H as <- <-.
Qed.
Lemma bw_flush_replies (w : writer A dst) a y : bw_flush dstep w = WRet (a, y) -> wr_treplies y = wr_treplies w.
Proof.
  unfold bw_flush. destruct (wr_berr w); [intros H; now injection H as <- <-|]. destruct (wr_buf w) as [|b t]; [intros H; now injection H as <- <-|].
  destruct (cur_write dstep (b :: t) w) as [[[n e] z]| |] eqn:E; try discriminate. apply cur_write_replies in E. cbv zeta.
  destruct e as [e|]; [intros H; now injection H as <- <-|]. destruct (n <? _)%nat; intros H; now injection H as <- <-.
Qed.
Lemma bw_loop_replies : forall f p (w : writer A dst) a y, bw_loop dstep f p w = WRet (a, y) -> wr_treplies y = wr_treplies w.
Proof.
  induction f as [|f IH]; intros p w a y; cbn [bw_loop]; (destruct (wr_berr w); [intros H; now injection H as <- <-|]); cbv zeta;
    (destruct (length p <=? _)%nat; [intros H; now injection H as <- <-|]); [discriminate|].
  destruct (wr_buf w) as [|b t].
  - destruct (cur_write dstep p w) as [[[n e] z]| |] eqn:E; try discriminate. apply cur_write_replies in E. intros H. apply IH in H. cbn in H. congruence.
  - destruct (bw_flush dstep _) as [[e z]| |] eqn:E; try discriminate. apply bw_flush_replies in E. cbn in E. intros H. apply IH in H. congruence.
Qed.
(** Methods of the writer keep it open. *)
Lemma fbody_open (w : writer A dst) e (y : writer A dst) : fbody w = WRet (e, y) -> wr_open y = wr_open w /\ wr_timeout y = wr_timeout w /\ wr_hooks y = wr_hooks w /\ wr_treplies y = wr_treplies w.
Proof.
  unfold fbody. intros E. destruct (bw_flush dstep w) as [[e1 w1]| |] eqn:F; try discriminate. pose proof (bw_flush_replies _ _ _ F) as FR. apply bw_flush_frame in F. destruct F as [(F1&F2&F3&F4&F5&F6&F7&F8&F9) _].
  destruct e1 as [e1|]; cbn [checked] in E; [injection E as <- <-; cbn; auto|].
  destruct (wr_zlib_on w1); [|injection E as <- <-; auto].
  unfold zlib_do in E. destruct (wr_zw w1) as [z|]; [|discriminate]. destruct (zw_do dstep DFlush z (wr_conn w1)) as [[[e2|] z'] c']; cbn in E; injection E as <- <-; cbn; auto.
Qed.
Lemma lbody_open d (w : writer A dst) e (y : writer A dst) : lbody d w = WRet (e, y) -> wr_open y = wr_open w /\ wr_timeout y = wr_timeout w /\ wr_hooks y = wr_hooks w /\ wr_treplies y = wr_treplies w.
Proof.
  unfold lbody. intros E. destruct (bw_write dstep d w) as [[e1 w1]| |] eqn:F; try discriminate. unfold bw_write in F. pose proof (bw_loop_replies _ _ _ _ _ F) as FR. apply bw_loop_frame in F. destruct F as [(F1&F2&F3&F4&F5&F6&F7&F8&F9) _].
  destruct e1 as [e1|]; cbn [checked] in E; injection E as <- <-; cbn; auto.
Qed.
Lemma timed_open b (w : writer A dst) e y : (forall (v : writer A dst) e (y : writer A dst), b v = WRet (e, y) -> wr_open y = wr_open v) -> timed b w = WRet (e, y) -> wr_open y = wr_open w.
Proof.
  intros Hb. unfold timed. destruct (wr_timeout w); [|apply Hb]. cbv zeta. destruct (hd None (wr_treplies w)); [intros E; now injection E as <- <-|].
  match goal with |- context [b ?z] => pose proof (Hb z) as Hz; destruct (b z) as [[e1 y1]| |] end; try discriminate. intros E. injection E as <- <-. exact (Hz _ _ eq_refl).
Qed.
Lemma flush_open (w : writer A dst) e y : flush dstep w = WRet (e, y) -> wr_open y = wr_open w.
Proof.
  unfold flush. destruct (wr_err w); [intros E; now injection E as <- <-|]. apply timed_open. intros v e1 y1 E. exact (proj1 (fbody_open v e1 y1 E)).
Qed.
End Bare.

(** ** A callback that calls nothing *)
Section Answer.
Context {A dst : Type} (dinit : Z -> dst) (dstep : dst -> dop -> dst * list bytes).
Notation L := (list (option error)).
Notation W := (A * L)%type.
Notation tw := (@twriter W dst).
Definition seen {B} (c : B -> nat * option error) (a : A) (r : wout (B * writer A dst)) : option (wout (nat * option error * W * tw)) :=
  match r with
  | WRet (b, y) => Some (WRet (c b, (a, wr_treplies y), view y))
  | WPan => Some WPan
  | WStuck => None
  end.
Lemma answer_timed again body b (a : A) (x : writer A dst) : (forall y : writer A dst, wr_open y = true -> body (bare y) = lift_d bare (b y)) ->
  (forall y e (z : writer A dst), b y = WRet (e, z) -> wr_open z = wr_open y /\ wr_timeout z = wr_timeout y /\ wr_hooks z = wr_hooks y /\ wr_treplies z = wr_treplies y) -> wr_open x = true ->
  t_timed again body (a, wr_treplies x) (view x) = seen (fun e => (O, e)) a (timed b x).
Proof.
  intros Hb Hf O. unfold t_timed, view, timed. cbn [tw_timeout tw_rest]. destruct (wr_timeout x) eqn:Et.
  - cbv zeta. cbn [answering fst snd run_tprog]. destruct (hd None (wr_treplies x)) as [e|] eqn:Eh.
    + cbn [seen]. unfold view. cbn. rewrite Et. reflexivity.
    + match goal with |- context [b ?z] => set (z0 := z) end.
      match goal with |- context [body (tw_rest ?s)] => change (tw_rest s) with (bare z0) end. rewrite (Hb z0) by exact O.
      destruct (b z0) as [[e y]| |] eqn:Eb; try reflexivity. destruct (Hf _ _ _ Eb) as (F0 & F1 & F2 & F3). cbn in F1, F2, F3. rewrite Et in F1.
      cbn [lift_d t_with tw_timeout tw_hooks run_tprog answering seen]. unfold view. cbn [wr_timeout wr_treplies wr_hooks with_io tw_rest t_with tw_timeout tw_hooks]. rewrite F1, F2, F3. reflexivity.
  - rewrite (Hb x O). destruct (b x) as [[e y]| |] eqn:Eb; try reflexivity. destruct (Hf _ _ _ Eb) as (F0 & F1 & F2 & F3).
    cbn [lift_d t_plain seen t_with tw_timeout tw_hooks]. unfold view. rewrite F1, F2, F3, Et. reflexivity.
Qed.
Lemma answer_flush again (a : A) (x : writer A dst) : (wr_err x = None -> wr_open x = true) -> t_flush dstep again (a, wr_treplies x) (view x) = seen (fun e => (O, e)) a (flush dstep x).
Proof.
  intros O. unfold t_flush, flush. cbn [tw_rest view]. change (wr_err (bare x)) with (wr_err x). destruct (wr_err x) as [e|] eqn:E; [reflexivity|]. change (bare x) with (tw_rest (view x)).
  apply answer_timed; [apply fbody_bare|apply fbody_open|auto].
Qed.
Lemma beside_run (hs : list (hook A)) : forall a (l : L) d, run_hooks (map beside hs) (a, l) d = let '(a', v) := run_hooks hs a d in ((a', l), v).
Proof.
  induction hs as [|h hs IH]; intros a l d; [reflexivity|]. cbn [map run_hooks]. unfold beside at 1. cbn [fst snd]. destruct (h a d) as [a' v]. destruct v; try reflexivity. apply IH.
Qed.
Theorem answer_call f (a : A) o (x : writer A dst) : (wr_err x = None -> wr_open x = true) ->
  t_call dinit dstep (S f) (a, wr_treplies x) (as_call o) (view x) =
  match run_op dinit dstep a o x with
  | WRet (n, e, a', y) => Some (WRet (n, e, (a', wr_treplies y), view y))
  | WPan => Some WPan
  | WStuck => None
  end.
Proof.
  intros O. destruct o as [d|p| |lvl| |]; cbn [as_call t_call run_op].
  - unfold t_line, write_line. cbn [tw_rest tw_hooks view]. change (wr_err (bare x)) with (wr_err x). destruct (wr_err x) as [e|] eqn:E; [reflexivity|].
    rewrite beside_run. destruct (run_hooks (wr_hooks x) a d) as [a' [| |e]]; try reflexivity.
    change (mkTwriter (if wr_timeout x then Some answering else None) (map beside (wr_hooks x)) (bare x)) with (view x). rewrite (answer_timed _ _ (lbody dstep d)); [|apply lbody_bare|apply lbody_open|auto].
    unfold lbody. destruct (timed _ x) as [[e y]| |]; reflexivity.
  - unfold t_write, write. cbn [tw_rest view]. change (wr_err (bare x)) with (wr_err x). change (wr_buf (bare x)) with (wr_buf x). destruct (wr_err x) as [e|] eqn:E; [reflexivity|].
    assert (C : forall (y : writer A dst) a, wr_open y = true -> t_cur dstep p (a, wr_treplies y) (view y) =
       match (match cur_write dstep p y with WRet (n, e, w') => WRet (n, e, a, w') | WPan => WPan | WStuck => WStuck end) with
       | WRet (n, e, a', y) => Some (WRet (n, e, (a', wr_treplies y), view y)) | WPan => Some WPan | WStuck => None end).
    { intros y b Hy. unfold t_cur. cbn [tw_rest view]. change (wr_open (bare y)) with (wr_open y). rewrite Hy, cur_write_bare.
      destruct (cur_write dstep p y) as [[[n e] z]| |] eqn:Ec; try reflexivity. pose proof (cur_write_replies _ _ _ _ _ Ec) as R1. apply cur_write_frame in Ec. destruct Ec as [(F1&F2&_) _].
      cbn [lift_d t_plain t_with tw_timeout tw_hooks]. unfold view. cbn [tw_timeout tw_hooks]. rewrite R1, F1, F2. reflexivity. }
    destruct (wr_buf x) as [|b0 bs]; [apply C; auto|]. rewrite answer_flush by (intros; auto). destruct (flush dstep x) as [[[e|] y]| |] eqn:Ef; try reflexivity.
    cbn [seen]. apply C. apply flush_open in Ef. rewrite Ef. auto.
  - rewrite answer_flush by exact O. destruct (flush dstep x) as [[e y]| |]; reflexivity.
  - unfold t_zlib, enable_zlib_level. cbn [tw_rest view]. change (wr_err (bare x)) with (wr_err x). change (wr_zlib_on (bare x)) with (wr_zlib_on x). destruct (wr_err x) as [e|] eqn:E; [reflexivity|].
    destruct (wr_zlib_on x); [reflexivity|]. rewrite answer_flush by (intros; auto). destruct (flush dstep x) as [[[e|] y]| |] eqn:Ef; try reflexivity.
    cbn [seen]. apply flush_open in Ef. cbn [tw_rest view]. unfold zlib_body. change (wr_zw (with_zmode true (wr_zcur (bare y)) (wr_zw (bare y)) (wr_lvl (bare y)) (bare y))) with (wr_zw y). cbv zeta.
    cbn [wr_zw wr_lvl with_zmode bare wr_open]. destruct (_ && _)%bool; [reflexivity|]. rewrite Ef, O by reflexivity. reflexivity.
  - cbn [tw_rest view]. rewrite disable_bare. destruct (disable_zlib dstep x) as [[e y]| |] eqn:Ed; try reflexivity. cbn [lift_d t_plain].
    assert (G : wr_timeout y = wr_timeout x /\ wr_hooks y = wr_hooks x /\ wr_treplies y = wr_treplies x).
    { unfold disable_zlib in Ed. destruct (wr_err x); [injection Ed as <- <-; auto|]. destruct (wr_zlib_on x); [|injection Ed as <- <-; auto].
      destruct (bw_flush dstep x) as [[[e1|] x1]| |] eqn:E1; try discriminate; cbn [checked] in Ed; pose proof (bw_flush_replies _ _ _ _ E1) as R1; apply bw_flush_frame in E1; destruct E1 as [(F1&F2&_) _];
        [injection Ed as <- <-; cbn; auto|].
      destruct (zlib_do dstep DClose x1) as [[[e2|] x2]| |] eqn:E2; try discriminate; cbn [checked] in Ed; unfold zlib_do in E2; destruct (wr_zw x1); try discriminate;
        destruct (zw_do dstep DClose _ _) as [[e3 z3] c3]; injection E2 as -> <-; injection Ed as <- <-; cbn; auto. }
    destruct G as (G1 & G2 & G3). unfold view. cbn [t_with tw_timeout tw_hooks]. rewrite G1, G2, G3. reflexivity.
  - cbn [tw_rest view tw_timeout tw_hooks]. rewrite close_bare. destruct (close_writer dstep x) as [[e y]| |] eqn:Ed; try reflexivity. cbn [lift_d t_plain].
    assert (G : wr_timeout y = wr_timeout x /\ wr_hooks y = [] /\ wr_treplies y = wr_treplies x).
    { unfold close_writer in Ed. destruct (wr_open x); [|discriminate]. destruct (bw_flush dstep x) as [[l x1]| |] eqn:E1; try discriminate. pose proof (bw_flush_replies _ _ _ _ E1) as R1.
      apply bw_flush_frame in E1. destruct E1 as [(F1&F2&_) _]. cbv zeta in Ed. set (w2 := match wr_err x1 with None => set_error err_writer_closed x1 | Some _ => x1 end) in *.
      assert (G : wr_timeout w2 = wr_timeout x /\ wr_treplies w2 = wr_treplies x) by (subst w2; destruct (wr_err x1); cbn; auto).
      destruct (wr_zlib_on w2); [|injection Ed as <- <-; cbn; tauto]. unfold zlib_do in Ed. destruct (wr_zw w2); [|discriminate]. destruct (zw_do dstep DClose _ _) as [[e3 z3] c3].
      injection Ed as <- <-. cbn. tauto. }
    destruct G as (G1 & G2 & G3). unfold view. cbn [t_with tw_timeout tw_hooks]. rewrite G1, G2, G3. reflexivity.
Qed.
End Answer.

(** ** Scripts *)
Section Script.
Context {dst : Type} (dinit : Z -> dst) (dstep : dst -> dop -> dst * list bytes).
Notation wr := (writer unit dst).
Lemma flush_body_open (x : wr) : wr_open x = true -> flush_body dstep x = fbody dstep x.
Proof. intros O. unfold flush_body, fbody. now rewrite O. Qed.
Lemma line_body_open d (x : wr) : wr_open x = true -> line_body dstep d x = lbody dstep d x.
Proof. intros O. unfold line_body, lbody. now rewrite O. Qed.

Section Silent.
Context {W : Type}.
(** No Timeout callback, or one that does nothing in this state. *)
Definition idle (t : option (W -> bool -> tprog W)) (w : W) : Prop :=
  match t with None => True | Some t => t w true = UReturn w None /\ t w false = UReturn w None end.
Lemma idle_timed again body t w hs (x : wr) : idle t w -> t_timed again body w (mkTwriter t hs x) = t_plain (fun e => (O, e)) w (mkTwriter t hs x) (body x).
Proof.
  intros I. unfold t_timed. cbn [tw_timeout tw_rest]. destruct t as [t|]; [|reflexivity]. destruct I as [I1 I2]. rewrite I1. cbn [run_tprog tw_rest tw_timeout].
  destruct (body x) as [[e y]| |]; try reflexivity. rewrite I2. reflexivity.
Qed.
Lemma idle_flush again t w hs (x : wr) : idle t w -> wr_timeout x = false -> (wr_err x = None -> wr_open x = true) ->
  t_flush dstep again w (mkTwriter t hs x) = t_plain (fun e => (O, e)) w (mkTwriter t hs x) (flush dstep x).
Proof.
  intros I Ht O. unfold t_flush, flush. cbn [tw_rest]. destruct (wr_err x) as [e|] eqn:E; [reflexivity|]. rewrite idle_timed by exact I. unfold timed. rewrite Ht, flush_body_open by auto. reflexivity.
Qed.
(** The callbacks behind a call: none after Close. *)
Lemma idle_call f t w o (x : wr) : idle t w -> wr_timeout x = false -> wr_hooks x = [] -> (wr_err x = None -> wr_open x = true) ->
  t_call dinit dstep (S f) w (as_call o) (mkTwriter t [] x) =
  match run_op dinit dstep tt o x with
  | WRet (n, e, _, y) => Some (WRet (n, e, w, mkTwriter t [] y))
  | WPan => Some WPan
  | WStuck => None
  end.
Proof.
  intros I Ht Hh O. destruct o as [d|p| |lvl| |]; cbn [as_call t_call run_op].
  - unfold t_line, write_line. cbn [tw_rest tw_hooks run_hooks]. rewrite Hh. cbn [run_hooks]. destruct (wr_err x) as [e|] eqn:E; [reflexivity|].
    rewrite idle_timed by exact I. unfold timed. rewrite Ht, line_body_open by auto. unfold lbody. destruct (checked _ _) as [[e y]| |]; reflexivity.
  - unfold t_write, write. cbn [tw_rest]. destruct (wr_err x) as [e|] eqn:E; [reflexivity|].
    assert (C : forall y : wr, wr_open y = true -> t_cur dstep p w (mkTwriter t [] y) =
       match (match cur_write dstep p y with WRet (n, e, w') => WRet (n, e, tt, w') | WPan => WPan | WStuck => WStuck end) with
       | WRet (n, e, _, y) => Some (WRet (n, e, w, mkTwriter t [] y)) | WPan => Some WPan | WStuck => None end).
    { intros y Hy. unfold t_cur. cbn [tw_rest]. rewrite Hy. destruct (cur_write dstep p y) as [[[n e] z]| |]; reflexivity. }
    destruct (wr_buf x) as [|b0 bs]; [apply C; auto|]. rewrite idle_flush by auto. destruct (flush dstep x) as [[[e|] y]| |] eqn:Ef; try reflexivity.
    cbn [t_plain t_with tw_timeout tw_hooks]. apply C. apply flush_open in Ef. rewrite Ef. auto.
  - rewrite idle_flush by auto. destruct (flush dstep x) as [[e y]| |]; reflexivity.
  - unfold t_zlib, enable_zlib_level. cbn [tw_rest]. destruct (wr_err x) as [e|] eqn:E; [reflexivity|].
    destruct (wr_zlib_on x); [reflexivity|]. rewrite idle_flush by auto. destruct (flush dstep x) as [[[e|] y]| |] eqn:Ef; try reflexivity.
    cbn [t_plain t_with tw_timeout tw_hooks tw_rest]. apply flush_open in Ef. unfold zlib_body. cbv zeta. destruct (_ && _)%bool; [reflexivity|].
    cbn [wr_open with_zmode]. rewrite Ef, O by reflexivity. reflexivity.
  - cbn [tw_rest]. destruct (disable_zlib dstep x) as [[e y]| |]; reflexivity.
  - cbn [tw_rest tw_timeout]. destruct (close_writer dstep x) as [[e y]| |]; reflexivity.
Qed.
End Silent.

(** A writer without callbacks, closed only after an error. *)
Definition lone (x : wr) : Prop := sound x /\ wr_timeout x = false.
Lemma run_op_timeout o (x : wr) n e u y : wr_timeout x = false -> run_op dinit dstep tt o x = WRet (n, e, u, y) -> wr_timeout y = false.
Proof.
  intros Ht.
  assert (F : forall e y, flush dstep x = WRet (e, y) -> wr_timeout y = false).
  { intros e0 y0. unfold flush. destruct (wr_err x); [intros E; now injection E as <- <-|]. unfold timed. rewrite Ht. intros E. apply (fbody_open dstep) in E. destruct E as (_ & E & _). congruence. }
  assert (C : forall p (v z : wr) a, wr_timeout v = false -> cur_write dstep p v = WRet (a, z) -> wr_timeout z = false).
  { intros p v z [n1 e1] Hv E. apply cur_write_frame in E. destruct E as [(F1&_) _]. congruence. }
  destruct o as [d|p| |lvl| |]; cbn [run_op].
  - unfold write_line. destruct (wr_err x); [intros E; now injection E as <- <- <- <-|]. destruct (run_hooks (wr_hooks x) tt d) as [u' [| |e1]]; try (intros E; now injection E as <- <- <- <-).
    unfold timed. rewrite Ht. destruct (checked (bw_write dstep d x) (fun w2 => WRet (None, w2))) as [[e1 z]| |] eqn:El; try discriminate.
    apply (lbody_open dstep) in El. destruct El as (_ & El & _). intros E. injection E as <- <- <- <-. congruence.
  - unfold write. destruct (wr_err x); [intros E; now injection E as <- <- <- <-|]. destruct (wr_buf x) as [|b0 bs].
    + destruct (cur_write dstep p x) as [[[n1 e1] z]| |] eqn:Ec; try discriminate. intros E. injection E as <- <- <- <-. exact (C _ _ _ _ Ht Ec).
    + destruct (flush dstep x) as [[[e1|] z]| |] eqn:Ef; try discriminate; [intros E; injection E as <- <- <- <-; exact (F _ _ eq_refl)|].
      destruct (cur_write dstep p z) as [[[n1 e1] z1]| |] eqn:Ec; try discriminate. intros E. injection E as <- <- <- <-. exact (C _ _ _ _ (F _ _ eq_refl) Ec).
  - destruct (flush dstep x) as [[e1 z]| |]; try discriminate. intros E. injection E as <- <- <- <-. exact (F _ _ eq_refl).
  - unfold enable_zlib_level. destruct (wr_err x); [intros E; now injection E as <- <- <- <-|]. destruct (wr_zlib_on x); [intros E; now injection E as <- <- <- <-|].
    destruct (flush dstep x) as [[[e1|] z]| |]; try discriminate; [intros E; injection E as <- <- <- <-; exact (F _ _ eq_refl)|]. cbv zeta.
    destruct (_ && _)%bool; intros E; injection E as <- <- <- <-; exact (F _ _ eq_refl).
  - unfold disable_zlib. destruct (wr_err x); [intros E; now injection E as <- <- <- <-|]. destruct (wr_zlib_on x); [|intros E; now injection E as <- <- <- <-].
    destruct (bw_flush dstep x) as [[[e1|] x1]| |] eqn:E1; try discriminate; cbn [checked]; apply bw_flush_frame in E1; destruct E1 as [(F1&F2&_) _]; [intros E; injection E as <- <- <- <-; cbn; congruence|].
    unfold zlib_do. destruct (wr_zw x1); try discriminate. destruct (zw_do dstep DClose _ _) as [[[e3|] z3] c3]; cbn [checked]; intros E; injection E as <- <- <- <-; cbn; congruence.
  - unfold close_writer. destruct (wr_open x); [|discriminate]. destruct (bw_flush dstep x) as [[l x1]| |] eqn:E1; try discriminate. apply bw_flush_frame in E1. destruct E1 as [(F1&F2&_) _]. cbv zeta.
    set (w2 := match wr_err x1 with None => set_error err_writer_closed x1 | Some _ => x1 end) in *.
    assert (G : wr_timeout w2 = false) by (subst w2; destruct (wr_err x1); cbn; congruence).
    destruct (wr_zlib_on w2); [|intros E; injection E as <- <- <- <-; exact G]. unfold zlib_do. destruct (wr_zw w2); [|discriminate]. destruct (zw_do dstep DClose _ _) as [[e3 z3] c3].
    intros E. injection E as <- <- <- <-. exact G.
Qed.
Lemma run_op_lone o (x : wr) n e u y : lone x -> run_op dinit dstep tt o x = WRet (n, e, u, y) -> lone y.
Proof.
  intros [HS Ht] E. split; [|exact (run_op_timeout _ _ _ _ _ _ Ht E)]. apply (makes_sound dinit dstep [o] x y HS). cbn [makes]. now rewrite E.
Qed.
Lemma makes_lone : forall os (x y : wr), lone x -> makes dinit dstep os x = WRet y -> lone y.
Proof.
  induction os as [|o os IH]; intros x y H; cbn [makes]; [intros E; now injection E as <-|].
  destruct (run_op dinit dstep tt o x) as [[[[n e] u] z]| |] eqn:E; try discriminate. apply IH. exact (run_op_lone _ _ _ _ _ _ H E).
Qed.
Lemma calling_makes f t v : idle t true -> forall os x, lone x ->
  run_tprog (t_call dinit dstep (S f)) (calling os v) (mkTwriter t [] x) =
  match makes dinit dstep os x with
  | WRet y => Some (WRet (false, v, mkTwriter t [] y))
  | WPan => Some WPan
  | WStuck => None
  end.
Proof.
  intros I. induction os as [|o os IH]; intros x [[Hh Ho] Ht]; [reflexivity|]. cbn [calling makes run_tprog]. rewrite idle_call by auto.
  destruct (run_op dinit dstep tt o x) as [[[[n e] u] z]| |] eqn:E; try reflexivity. apply IH. eapply run_op_lone; [|exact E]. split; [split|]; auto.
Qed.
Definition told_t (f : wr -> wout (option error * wr)) x : option (option (option error * wr)) := match f x with WRet a => Some (Some a) | WPan => Some None | WStuck => None end.
Definition body_of (o : wop) : wr -> wout (option error * wr) := match o with OLine d => line_body dstep d | _ => flush_body dstep end.
Definition sets_timeout (o : wop) : Prop := match o with OLine _ | OFlush => True | _ => False end.
Lemma goes_iff o (x : wr) r : wr_timeout x = false -> wr_hooks x = [] -> sets_timeout o -> (goes dinit dstep o x r <-> told_t (body_of o) x = Some r).
Proof.
  intros Ht Hh Ho.
  assert (D : @dress unit unit dst [] (wr_err x) x = x) by (rewrite <- Hh; destruct x; reflexivity).
  assert (B : wr_open x = true -> run_op dinit dstep tt o (dress [] None x) =
     match body_of o (dress [] None x) with WRet (e, y) => WRet (O, e, tt, y) | WPan => WPan | WStuck => WStuck end).
  { intros Oo. destruct o as [d|p| |lvl| |]; try contradiction; cbn [run_op body_of].
    - unfold write_line, line_body, timed. cbn [wr_err wr_hooks dress run_hooks wr_timeout wr_open]. rewrite Ht, Oo. destruct (checked _ _) as [[e y]| |]; reflexivity.
    - unfold flush, flush_body, timed. cbn [wr_err dress wr_timeout wr_open]. rewrite Ht, Oo. destruct (checked _ _) as [[e y]| |]; reflexivity. }
  assert (C : body_of o x = match body_of o (dress [] None x) with
     | WRet (None, y) => WRet (None, dress [] (wr_err x) y) | WRet (Some e, y) => WRet (Some e, dress [] (Some e) y) | WPan => WPan | WStuck => WStuck end).
  { assert (DD : forall q, @dress unit unit dst [] q (@dress unit unit dst [] None x) = dress [] q x) by reflexivity.
    rewrite <- D at 1. rewrite <- DD. set (x0 := dress [] None x). set (e0 := wr_err x).
    destruct o as [d|p| |lvl| |]; try contradiction; cbn [body_of]; unfold line_body, flush_body; cbn [wr_open dress];
      (destruct (wr_open x0); [|reflexivity]); [rewrite bw_write_dress|rewrite bw_flush_dress].
    - destruct (bw_write dstep d x0) as [[[e|] y]| |]; reflexivity.
    - destruct (bw_flush dstep x0) as [[[e|] y]| |]; try reflexivity. cbn [lift_d checked wr_zlib_on dress]. destruct (wr_zlib_on y); [|reflexivity].
      fold (@dress unit unit dst [] e0 y). rewrite zlib_do_dress. destruct (zlib_do dstep DFlush y) as [[[e|] z]| |]; reflexivity. }
  split; intros G; unfold told_t in *.
  - inversion G as [n u x1 G1 G2|n e u x1 G1 G2|G1 G2|G1]; subst.
    1,2,3: rewrite (B G1) in G2; rewrite C; destruct (body_of o (dress [] None x)) as [[e2 y2]| |]; try discriminate; try reflexivity; injection G2; intros; subst; reflexivity.
    destruct o as [d|p| |lvl| |]; try contradiction; cbn [body_of]; unfold line_body, flush_body; rewrite G1; reflexivity.
  - destruct (wr_open x) eqn:Eo.
    + specialize (B eq_refl). rewrite C in G. destruct (body_of o (dress [] None x)) as [[[e|] y]| |]; try discriminate; injection G as <-;
        [eapply go_error; eauto|eapply go_done; eauto|apply go_panic; auto].
    + assert (P : body_of o x = WPan) by (destruct o as [d|p| |lvl| |]; try contradiction; cbn [body_of]; unfold line_body, flush_body; rewrite Eo; reflexivity).
      rewrite P in G. injection G as <-. now apply go_closed.
Qed.
Lemma goes_body o (x : wr) r : wr_timeout x = false -> wr_hooks x = [] -> sets_timeout o -> goes dinit dstep o x r -> told_t (body_of o) x = Some r.
Proof. intros Ht Hh Ho. apply goes_iff; assumption. Qed.
(** The own work keeps the writer without callbacks. *)
Lemma body_lone o (x1 : wr) e x2 : lone x1 -> sets_timeout o -> body_of o x1 = WRet (e, x2) -> lone x2.
Proof.
  intros [L1 L3] Ho E2. destruct o as [d|p| |lvl| |]; try contradiction; cbn [body_of] in E2.
  - unfold line_body in E2. destruct (wr_open x1) eqn:Eo; [|discriminate]. pose proof (checked_sound (bw_write dstep d x1) (fun x2 => WRet (None, x2)) (bw_write_sound dstep d x1 L1) (fun y H => H)) as HS.
    rewrite E2 in HS. split; [exact HS|]. apply (lbody_open dstep) in E2. destruct E2 as (_ & -> & _). exact L3.
  - rewrite flush_body_open in E2 by (unfold flush_body in E2; destruct (wr_open x1); [reflexivity|discriminate]).
    assert (HS : sounds (fbody dstep x1)).
    { apply checked_sound; [now apply bw_flush_sound|]. intros z Hz. destruct (wr_zlib_on z); [|exact Hz]. apply checked_sound; [now apply zlib_do_sound|]. intros u Hu. exact Hu. }
    rewrite E2 in HS. split; [exact HS|]. apply (fbody_open dstep) in E2. destruct E2 as (_ & -> & _). exact L3.
Qed.
Lemma script_timed f O1 v O2 o (x : wr) : lone x -> sets_timeout o ->
  t_timed (t_call dinit dstep (S f)) (body_of o) false (mkTwriter (Some (timing O1 v O2)) [] x) =
  match makes dinit dstep O1 x with
  | WPan => Some WPan
  | WStuck => None
  | WRet x1 =>
      match v with
      | Some e => Some (WRet (O, Some e, false, mkTwriter (Some (timing O1 v O2)) [] (set_error e x1)))
      | None =>
          match body_of o x1 with
          | WPan => Some WPan
          | WStuck => None
          | WRet (e, x2) =>
              match makes dinit dstep O2 x2 with
              | WPan => Some WPan
              | WStuck => None
              | WRet x3 => Some (WRet (O, e, false, mkTwriter (Some (timing O1 v O2)) [] x3))
              end
          end
      end
  end.
Proof.
  intros L Ho. unfold t_timed. cbn [tw_timeout]. unfold timing at 1. rewrite calling_makes; [|split; reflexivity|exact L].
  destruct (makes dinit dstep O1 x) as [x1| |] eqn:E1; try reflexivity. pose proof (makes_lone _ _ _ L E1) as L1. destruct v as [e|]; [reflexivity|]. cbn [tw_rest tw_timeout].
  destruct (body_of o x1) as [[e x2]| |] eqn:E2; try reflexivity.
  pose proof (body_lone _ _ _ _ L1 Ho E2) as L2.
  unfold t_with. cbn [tw_timeout tw_hooks]. change (timing O1 None O2 false false) with (calling O2 None). rewrite calling_makes; [|split; reflexivity|exact L2].
  destruct (makes dinit dstep O2 x2) as [x3| |]; reflexivity.
Qed.
Lemma script_call f O1 v O2 o (x : wr) : lone x -> wr_err x = None -> sets_timeout o ->
  t_call dinit dstep (S (S f)) false (as_call o) (mkTwriter (Some (timing O1 v O2)) [] x) =
  t_timed (t_call dinit dstep (S f)) (body_of o) false (mkTwriter (Some (timing O1 v O2)) [] x).
Proof.
  intros L E Ho. destruct o as [d|p| |lvl| |]; try contradiction; cbn [as_call body_of]; [change (t_call dinit dstep (S (S f)) false (CLine d)) with (t_line dstep (t_call (W := bool) dinit dstep (S f)) d false)|
    change (t_call dinit dstep (S (S f)) false CFlush) with (t_flush dstep (t_call (W := bool) dinit dstep (S f)) false)].
  - unfold t_line. cbn [tw_rest tw_hooks run_hooks]. now rewrite E.
  - unfold t_flush. cbn [tw_rest]. now rewrite E.
Qed.
End Script.

(** ** Errors stay *)
Section Sticky.
Context {W dst : Type} (dinit : Z -> dst) (dstep : dst -> dop -> dst * list bytes).
Notation tw := (@twriter W dst).
Definition stays (e : error) (r : option (wout (nat * option error * W * tw))) : Prop := match r with Some (WRet (_, _, s)) => wr_err (tw_rest s) = Some e | _ => True end.
Lemma call_stays f w c (s : tw) e : wr_err (tw_rest s) = Some e -> stays e (t_call dinit dstep f w c s).
Proof.
  intros E. destruct f as [|f]; [exact Logic.I|]. destruct c as [d|p| |lvl| |]; cbn [t_call]; unfold t_line, t_write, t_flush, t_zlib; rewrite ?E; try exact E.
  - unfold disable_zlib. rewrite E. exact E.
  - cbn [tw_rest]. destruct (close_writer dstep (tw_rest s)) as [[e1 y]| |] eqn:C; try exact Logic.I. cbn. unfold close_writer in C.
    destruct (wr_open (tw_rest s)); [|discriminate]. destruct (bw_flush dstep (tw_rest s)) as [[l x1]| |] eqn:E1; try discriminate. apply bw_flush_frame in E1. destruct E1 as [(_&_&_&_&_&_&_&F8&_) _].
    rewrite E in F8. cbv zeta in C. rewrite F8 in C. destruct (wr_zlib_on x1); [|now injection C as <- <-].
    unfold zlib_do in C. destruct (wr_zw x1); [|discriminate]. destruct (zw_do dstep DClose _ _) as [[e3 z3] c3]. injection C as <- <-. exact F8.
Qed.
Lemma prog_stays f e : forall p (s : tw) w v s', wr_err (tw_rest s) = Some e -> run_tprog (t_call dinit dstep f) p s = Some (WRet (w, v, s')) -> wr_err (tw_rest s') = Some e.
Proof.
  induction p as [w v| |w c k IH|k IH|on er p IH|t p IH]; intros s w1 v1 s1 E; cbn [run_tprog].
  - intros R. now injection R as <- <- <-.
  - discriminate.
  - pose proof (call_stays f w c s e E) as C. destruct (t_call dinit dstep f w c s) as [[[[a w2] s2]| |]|]; try discriminate. destruct a as [n er]. exact (IH _ _ _ _ _ _ C).
  - apply IH. exact E.
  - apply IH. exact E.
  - apply IH. exact E.
Qed.
Lemma timed_sticky f body w (s : tw) n e w' s' : (forall x e y, body x = WRet (Some e, y) -> wr_err y = Some e) ->
  t_timed (t_call dinit dstep f) body w s = Some (WRet (n, Some e, w', s')) -> wr_err (tw_rest s') = Some e.
Proof.
  intros Hb. unfold t_timed. destruct (tw_timeout s) as [t|].
  - destruct (run_tprog _ (t w true) s) as [[[[w1 [e1|]] s1]| |]|]; try discriminate; [intros E; now injection E as <- <- <- <-|].
    destruct (body (tw_rest s1)) as [[e2 x]| |] eqn:B; try discriminate. destruct (tw_timeout s1) as [t'|]; [|discriminate].
    destruct (run_tprog _ (t' w1 false) (t_with x s1)) as [[[[w2 v2] s2]| |]|] eqn:R; try discriminate. intros E. injection E as <- -> <- <-.
    apply prog_stays with (e := e) in R; [exact R|]. exact (Hb _ _ _ B).
  - destruct (body (tw_rest s)) as [[e2 x]| |] eqn:B; try discriminate. cbn. intros E. injection E as <- -> <- <-. exact (Hb _ _ _ B).
Qed.
Theorem call_sticky f w c (s : tw) n e w' s' : match c with CLine _ | CFlush => True | _ => False end ->
  t_call dinit dstep f w c s = Some (WRet (n, Some e, w', s')) -> wr_err (tw_rest s') = Some e.
Proof.
  intros Hc. destruct f as [|f]; [discriminate|]. destruct c as [d|p| |lvl| |]; try contradiction; cbn [t_call].
  - unfold t_line. destruct (wr_err (tw_rest s)) as [e1|] eqn:E; [intros R; injection R as <- <- <- <-; exact E|].
    destruct (run_hooks (tw_hooks s) w d) as [w1 [| |e1]]; [|discriminate|intros R; now injection R as <- <- <- <-].
    apply timed_sticky. intros x e1 y. unfold line_body. destruct (wr_open x); [|discriminate]. destruct (bw_write dstep d x) as [[[e2|] z]| |]; try discriminate. cbn. intros R. now injection R as <- <-.
  - unfold t_flush. destruct (wr_err (tw_rest s)) as [e1|] eqn:E; [intros R; injection R as <- <- <- <-; exact E|].
    apply timed_sticky. intros x e1 y. unfold flush_body. destruct (wr_open x); [|discriminate]. destruct (bw_flush dstep x) as [[[e2|] z]| |]; try discriminate; cbn [checked]; [intros R; now injection R as <- <-|].
    destruct (wr_zlib_on z); [|discriminate]. destruct (zlib_do dstep DFlush z) as [[[e2|] z2]| |]; try discriminate. cbn. intros R. now injection R as <- <-.
Qed.

(** ** Recursion *)
Lemma recursion (t : W -> bool -> tprog W) (hs : list (hook W)) (x : writer unit dst) (g : W -> W) c0 k : (forall w, t w true = UCall (g w) (c0 w) (k w)) ->
  (forall w, match c0 w with CLine d => forall w, snd (run_hooks hs w d) = HPass | CFlush => True | _ => False end) -> wr_err x = None ->
  forall f w c, (match c with CLine d => forall w, snd (run_hooks hs w d) = HPass | CFlush => True | _ => False end) -> t_call dinit dstep f w c (mkTwriter (Some t) hs x) = None.
Proof.
  intros Ht H0 E. induction f as [|f IH]; intros w c Hc; [reflexivity|].
  assert (G : forall b w, t_timed (t_call dinit dstep f) b w (mkTwriter (Some t) hs x) = None).
  { intros b w1. unfold t_timed. cbn [tw_timeout]. rewrite Ht. cbn [run_tprog]. rewrite IH; [reflexivity|apply H0]. }
  destruct c as [d|p| |lvl| |]; try contradiction; cbn [t_call].
  - unfold t_line. cbn [tw_rest tw_hooks]. rewrite E. specialize (Hc w). destruct (run_hooks hs w d) as [w1 v]. cbn in Hc. subst v. apply G.
  - unfold t_flush. cbn [tw_rest]. rewrite E. apply G.
Qed.
(** Flush when the timeout is removed, without end as long as there is no error. *)
Lemma endless (t : W -> bool -> tprog W) (hs : list (hook W)) c0 k : (forall w, t w true = UReturn w None) -> (forall w, t w false = UCall w c0 (k w)) ->
  (c0 = CFlush) -> forall f w (x : writer unit dst), wr_err x = None -> wr_open x = true -> wr_berr x = None -> wr_buf x = [] -> wr_zlib_on x = false ->
  t_call dinit dstep f w CFlush (mkTwriter (Some t) hs x) = None.
Proof.
  intros T1 T2 ->. induction f as [|f IH]; intros w x E O B1 B2 Z; [reflexivity|]. cbn [t_call]. unfold t_flush. cbn [tw_rest]. rewrite E. unfold t_timed. cbn [tw_timeout]. rewrite T1. cbn [run_tprog tw_rest tw_timeout].
  unfold flush_body. rewrite O. unfold bw_flush. rewrite B1, B2. cbn [checked]. rewrite Z. unfold t_with. cbn [tw_timeout tw_hooks]. rewrite T2. cbn [run_tprog]. rewrite IH by assumption. reflexivity.
Qed.
(** Timeout assigned in Timeout(true). *)
Lemma timed_swap f body w (t : W -> bool -> tprog W) t' (hs : list (hook W)) (x : writer unit dst) w1 : t w true = USet t' (UReturn w1 None) ->
  t_timed (t_call dinit dstep f) body w (mkTwriter (Some t) hs x) =
  match body x with
  | WRet (e, y) => match t' with
                   | None => Some WPan
                   | Some t' => match run_tprog (t_call dinit dstep f) (t' w1 false) (mkTwriter (Some t') hs y) with
                                | Some (WRet (w2, _, s2)) => Some (WRet (O, e, w2, s2))
                                | Some WPan => Some WPan
                                | _ => None
                                end
                   end
  | WPan => Some WPan
  | WStuck => None
  end.
Proof.
  intros E. unfold t_timed. cbn [tw_timeout]. rewrite E. cbn [run_tprog tw_rest tw_hooks tw_timeout]. destruct (body x) as [[e y]| |]; try reflexivity. destruct t' as [t'|]; [|reflexivity].
  unfold t_with. cbn [tw_timeout tw_hooks]. destruct (run_tprog _ _ _) as [[[[w2 v2] s2]| |]|]; reflexivity.
Qed.
End Sticky.
