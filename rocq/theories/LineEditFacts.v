(** Lemmas about line callbacks of the writer that write to the line. *)
From Verif Require Import Base BaseFacts LineReader SpecLine LineWriter SpecWriter LineWriterFacts LineWriterOps LineWriterFinal LineTransport
  NmdcMessage NmdcReader NmdcWriter SpecNmdcWriter NmdcWriterFacts LineEdit SpecEdit.

(** ** Writing over a slice *)
Lemma write_over_length d new : length (write_over d new) = length d.
Proof. unfold write_over. rewrite app_length, firstn_length, skipn_length. lia. Qed.
Lemma write_over_overlaid d new : overlaid d new (write_over d new).
Proof.
  split; [apply write_over_length|]. intros k Hk. unfold write_over. destruct (Nat.ltb_spec k (length new)) as [H|H].
  - rewrite app_nth1 by (rewrite firstn_length; lia). rewrite <- (firstn_skipn (length d) new) at 2.
    rewrite app_nth1 by (rewrite firstn_length; lia). reflexivity.
  - rewrite app_nth2 by (rewrite firstn_length; lia). rewrite firstn_length.
    rewrite <- (firstn_skipn (length new) d) at 3. rewrite app_nth2 by (rewrite firstn_length; lia). rewrite firstn_length. f_equal. lia.
Qed.
Lemma overlaid_unique d new a : overlaid d new a -> a = write_over d new.
Proof.
  intros [L H]. pose proof (write_over_overlaid d new) as [L' H']. apply (nth_ext _ _ x00 x00); [congruence|].
  intros k Hk. rewrite H, H' by congruence. reflexivity.
Qed.
Lemma write_over_nothing d : write_over d [] = d.
Proof. unfold write_over. now rewrite firstn_nil. Qed.

Lemma run_edits_verdict {W} : forall (hs : list (edit_hook W)) s d s' d' v, run_edits hs s d = ((s', d'), v) -> everdict hs s d s' d' v.
Proof.
  induction hs as [|h hs IH]; intros s d s' d' v H; cbn in H; [injection H as <- <- <-; constructor|].
  destruct (h s d) as [[s1 new] [| |e]] eqn:E.
  - eapply ev_pass; [exact E|apply write_over_overlaid|auto].
  - injection H as <- <- <-. eapply ev_stop; [exact E|discriminate|apply write_over_overlaid].
  - injection H as <- <- <-. eapply ev_stop; [exact E|discriminate|apply write_over_overlaid].
Qed.
Lemma verdict_run_edits {W} (hs : list (edit_hook W)) s d s' d' v : everdict hs s d s' d' v -> run_edits hs s d = ((s', d'), v).
Proof.
  induction 1 as [w d|h hs w d w1 new d1 w2 d2 v E O _ IH|h hs w d w1 new d1 v E N O]; cbn; [reflexivity| |]; rewrite E, <- (overlaid_unique _ _ _ O); [exact IH|].
  now destruct v.
Qed.
Lemma everdict_length {W} (hs : list (edit_hook W)) s d s' d' v : everdict hs s d s' d' v -> length d' = length d.
Proof. induction 1 as [|? ? ? ? ? ? ? ? ? ? _ O _ IH|? ? ? ? ? ? ? ? _ _ O]; [reflexivity| |]; destruct O as [L _]; congruence. Qed.
Lemma run_edits_looking {W} : forall (hs : list (hook W)) s d, run_edits (map looking hs) s d = (let '(s', v) := run_hooks hs s d in ((s', d), v)).
Proof.
  induction hs as [|h hs IH]; intros s d; cbn; [reflexivity|]. unfold looking at 1. destruct (h s d) as [s1 [| |e]]; rewrite write_over_nothing; auto.
Qed.

(** ** Slices of the caller *)
Lemma put_slice_replaced : forall i d mem, replaced i d mem (put_slice i d mem).
Proof.
  intros i d mem. revert i. induction mem as [|x t IH]; intros i; cbn [put_slice].
  - split; [reflexivity|]. split; [cbn; lia|reflexivity].
  - destruct i as [|i]; unfold replaced; cbn [length nth].
    + split; [reflexivity|]. split; [reflexivity|]. intros [|j] Hj; [easy|reflexivity].
    + destruct (IH i) as (L & H1 & H2). split; [now rewrite L|]. split; [intros K; apply H1; lia|].
      intros [|j] Hj; [reflexivity|]. apply H2. congruence.
Qed.

Section Facts.
Context {W dst : Type} (dinit : Z -> dst) (dstep : dst -> dop -> dst * list bytes).
Notation writer := (writer W dst).

(** ** Callbacks that only look *)
Definition recall (hs : list (hook W)) (w : writer) : writer :=
  mkWriter (wr_timeout w) (wr_treplies w) hs (wr_conn w) (wr_open w) (wr_zcur w) (wr_size w) (wr_buf w) (wr_berr w) (wr_err w) (wr_zlib_on w) (wr_zw w) (wr_lvl w).
Definition lift_w {A} (f : writer -> writer) (r : wout (A * writer)) : wout (A * writer) :=
  match r with WRet (a, w) => WRet (a, f w) | WPan => WPan | WStuck => WStuck end.
Variable hs : list (hook W).
Notation R := (recall hs).
Lemma cur_write_recall p w : cur_write dstep p (R w) = lift_w R (cur_write dstep p w).
Proof.
  unfold cur_write, zlib_do. cbn [wr_zcur wr_zw wr_conn recall]. destruct (wr_zcur w).
  - destruct (wr_zw w) as [z|]; [|reflexivity]. destruct (zw_do dstep (DWrite p) z (wr_conn w)) as [[[e|] z'] c']; reflexivity.
  - destruct (conn_write p (wr_conn w)) as [[n e] c']. reflexivity.
Qed.
Lemma bw_flush_recall w : bw_flush dstep (R w) = lift_w R (bw_flush dstep w).
Proof.
  unfold bw_flush. rewrite cur_write_recall || idtac. cbn [wr_berr wr_buf recall]. destruct (wr_berr w); [reflexivity|]. destruct (wr_buf w) as [|b t]; [reflexivity|].
  fold (recall hs w). rewrite cur_write_recall. destruct (cur_write dstep (b :: t) w) as [[[n e] w']| |]; cbn [lift_w]; try reflexivity.
  destruct e as [e|]; [reflexivity|]. destruct (n <? _)%nat; reflexivity.
Qed.
Lemma bw_loop_recall : forall fuel p w, bw_loop dstep fuel p (R w) = lift_w R (bw_loop dstep fuel p w).
Proof.
  induction fuel as [|f IH]; intros p w; cbn [bw_loop]; change (wr_berr (R w)) with (wr_berr w); change (wr_size (R w)) with (wr_size w); change (wr_buf (R w)) with (wr_buf w);
    (destruct (wr_berr w); [reflexivity|]); cbv zeta; (destruct (length p <=? _)%nat; [reflexivity|]); [reflexivity|].
  destruct (wr_buf w) as [|b t].
  - rewrite cur_write_recall. destruct (cur_write dstep p w) as [[[n e] w']| |]; cbn [lift_w]; try reflexivity.
    change (with_buf [] e (R w')) with (R (with_buf [] e w')). apply IH.
  - match goal with |- context [bw_flush dstep (with_buf ?q None (R w))] => change (with_buf q None (R w)) with (R (with_buf q None w)) end.
    rewrite bw_flush_recall. destruct (bw_flush dstep _) as [[e w']| |]; cbn [lift_w]; try reflexivity. apply IH.
Qed.
Lemma line_body_recall d w : timed (fun w1 => checked (bw_write dstep d w1) (fun w2 => WRet (None, w2))) (R w) =
  lift_w R (timed (fun w1 => checked (bw_write dstep d w1) (fun w2 => WRet (None, w2))) w).
Proof.
  assert (G : forall v, checked (bw_write dstep d (R v)) (fun w2 => WRet (None, w2)) = lift_w R (checked (bw_write dstep d v) (fun w2 => WRet (None, w2)))).
  { intros v. unfold bw_write. change (wr_conn (R v)) with (wr_conn v). rewrite bw_loop_recall.
    destruct (bw_loop dstep _ d v) as [[[e|] v']| |]; reflexivity. }
  unfold timed. change (wr_timeout (R w)) with (wr_timeout w). change (wr_treplies (R w)) with (wr_treplies w). destruct (wr_timeout w); [|apply G].
  cbv zeta. destruct (hd None (wr_treplies w)) as [er|]; [reflexivity|].
  match goal with |- match checked (bw_write dstep d ?a) _ with _ => _ end = _ => change a with (R (with_treplies (tl (wr_treplies w)) (with_io (conn_log (EvTimeout true None) (wr_conn w)) (wr_zw w) w))) end.
  rewrite G. destruct (checked _ _) as [[e v]| |]; reflexivity.
Qed.
End Facts.

Section Looking.
Context {W dst : Type} (dinit : Z -> dst) (dstep : dst -> dop -> dst * list bytes).
Notation writer := (writer W dst).
Lemma same_recall (a b : writer) : same_but_callbacks a b -> b = recall (wr_hooks b) a.
Proof.
  intros (H1 & H2 & H3 & H4 & H5 & H6 & H7 & H8 & H9 & H10 & H11 & H12). unfold recall.
  rewrite H1, H2, H3, H4, H5, H6, H7, H8, H9, H10, H11, H12. destruct b; reflexivity.
Qed.
Lemma recall_same hs (a : writer) : same_but_callbacks a (recall hs a). Proof. now repeat split. Qed.
Theorem looking_line (a b : writer) s d : same_but_callbacks a b ->
  alike_lines d (edit_line dstep (map looking (wr_hooks b)) s d a) (write_line dstep s d b).
Proof.
  intros H. rewrite (same_recall a b H). generalize (wr_hooks b). clear b H. intros hs.
  unfold edit_line, write_line. change (wr_err (recall hs a)) with (wr_err a). change (wr_hooks (recall hs a)) with hs.
  destruct (wr_err a); [cbn; auto using recall_same|]. rewrite run_edits_looking. destruct (run_hooks hs s d) as [s1 [| |e]]; [|cbn; auto using recall_same..].
  - rewrite line_body_recall. destruct (timed _ a) as [[e w]| |]; cbn; auto using recall_same.
  - split; [auto|]. split; [auto|]. split; [auto|]. now repeat split.
Qed.

(** ** One line *)
Theorem edited_line (hs : list (edit_hook W)) s d s1 d1 v (w : writer) : wr_err w = None -> wr_hooks w = [] -> everdict hs s d s1 d1 v ->
  edit_line dstep hs s d w =
    match v with
    | HErr e => WRet (Some e, s1, d1, set_error e w)
    | HDrop => WRet (None, s1, d1, w)
    | HPass => match write_line dstep s d1 w with WRet (e, _, w') => WRet (e, s1, d1, w') | WPan => WPan | WStuck => WStuck end
    end.
Proof.
  intros He Hh H. unfold edit_line, write_line. rewrite He, (verdict_run_edits _ _ _ _ _ _ H), Hh. cbn [run_hooks]. destruct v; try reflexivity.
  destruct (timed _ w) as [[e w']| |]; reflexivity.
Qed.

Lemma edit_call_err (hs : list (edit_hook W)) s mem o (w : writer) e s' mem' w' : edit_call dstep hs s mem o w = WRet (e, s', mem', w') ->
  wr_err w' = None -> wr_err w = None.
Proof.
  intros H He. destruct (wr_err w) as [e0|] eqn:E; [|reflexivity]. exfalso. destruct o; cbn in H.
  - unfold edit_line in H. rewrite E in H. injection H as <- <- <- <-. congruence.
  - unfold flush in H. rewrite E in H. injection H as <- <- <- <-. congruence.
  - injection H as <- <- <- <-. congruence.
Qed.
Lemma edit_calls_err (hs : list (edit_hook W)) s mem (w : writer) h s' mem' w' : edit_calls dstep hs s mem w h s' mem' w' -> wr_err w' = None -> wr_err w = None.
Proof. induction 1; auto. intros He. eapply edit_call_err; eauto. Qed.

(** ** Any number of steps *)
Lemma edit_flush_reached (hs : list (edit_hook W)) w0 s0 s mem (w : writer) e s1 mem1 w1 ops : edit_call dstep hs s mem EFlush w = WRet (e, s1, mem1, w1) ->
  wr_err w1 = None -> reached dinit dstep w0 s0 ops w -> e = None /\ s1 = s /\ mem1 = mem /\ reached dinit dstep w0 s0 (ops ++ [OFlush]) w1.
Proof.
  intros H He R. cbn [edit_call] in H. pose proof (flush_hks dstep w) as HK. destruct (flush dstep w) as [[e2 w2]| |] eqn:E; try discriminate. injection H as <- <- <- <-.
  assert (e2 = None) as ->.
  { destruct e2 as [e2|]; [|reflexivity]. apply flush_fails in E. congruence. }
  split; [reflexivity|]. split; [reflexivity|]. split; [reflexivity|].
  apply (reached_lift dinit dstep _ _ _ _ _ _ R); [cbn; now rewrite E|discriminate|discriminate|]. cbn in HK. rewrite HK. apply R.
Qed.
Theorem edit_calls_reached (hs : list (edit_hook W)) w0 s0 s mem (w : writer) h s' mem' w' : edit_calls dstep hs s mem w h s' mem' w' -> forall ops,
  wr_err w' = None -> reached dinit dstep w0 s0 ops w ->
  exists ls ops2, sent hs s mem h ls s' mem' /\ op_lines ops2 = ls /\ Forall line_op ops2 /\ reached dinit dstep w0 s0 (ops ++ ops2) w'.
Proof.
  induction 1 as [s mem w|s mem w o e s1 mem1 w1 h s2 mem2 w2 Hr Hn IH]; intros ops He R.
  - exists [], []. rewrite app_nil_r. split; [constructor|]. auto.
  - pose proof (edit_calls_err _ _ _ _ _ _ _ _ Hn He) as He1. pose proof (edit_call_err _ _ _ _ _ _ _ _ _ Hr He1) as He0.
    destruct o as [i| |i d].
    + cbn [edit_call] in Hr. destruct (edit_line dstep hs s (nth i mem []) w) as [[[[e1 s3] d1] w3]| |] eqn:E; try discriminate. injection Hr as <- <- <- <-.
      destruct (run_edits hs s (nth i mem [])) as [[s4 d4] v] eqn:RE. apply run_edits_verdict in RE.
      rewrite (edited_line _ _ _ _ _ _ _ He0 (proj2 R) RE) in E. destruct v as [| |er].
      * destruct (write_line dstep s d4 w) as [[[e5 s5] w5]| |] eqn:E5; try discriminate. injection E as <- <- <- <-.
        destruct (line_stateless dstep s s0 d4 _ _ _ _ (proj2 R) E5) as (-> & _ & _ & Hne). rewrite (Hne He1) in *.
        destruct (IH _ He (reached_line dinit dstep _ _ _ _ _ _ _ R E5)) as (ls & o2 & K1 & K2 & K3 & K4). exists (d4 :: ls), (OLine d4 :: o2).
        split; [eapply se_line; [exact RE|apply put_slice_replaced|exact K1]|]. split; [cbn; f_equal; exact K2|]. split; [constructor; [exact I|exact K3]|].
        rewrite <- app_assoc in K4. exact K4.
      * injection E as <- <- <- <-. destruct (IH _ He R) as (ls & o2 & K1 & K2). exists ls, o2.
        split; [eapply se_drop; [exact RE|apply put_slice_replaced|exact K1]|exact K2].
      * injection E as <- <- <- <-. discriminate He1.
    + destruct (edit_flush_reached _ _ _ _ _ _ _ _ _ _ _ Hr He1 R) as (-> & -> & -> & R2).
      destruct (IH _ He R2) as (ls & o2 & K1 & K2 & K3 & K4). exists ls, (OFlush :: o2). split; [constructor; exact K1|]. split; [exact K2|].
      split; [constructor; [exact I|exact K3]|]. rewrite <- app_assoc in K4. exact K4.
    + injection Hr as <- <- <- <-. destruct (IH _ He R) as (ls & o2 & K1 & K2). exists ls, o2.
      split; [eapply se_fill; [apply put_slice_replaced|exact K1]|exact K2].
Qed.
Lemma edit_calls_split (hs : list (edit_hook W)) o e h : forall s mem (w : writer) s2 mem2 w2, edit_calls dstep hs s mem w (h ++ [(o, e)]) s2 mem2 w2 ->
  exists s1 mem1 w1, edit_calls dstep hs s mem w h s1 mem1 w1 /\ edit_call dstep hs s1 mem1 o w1 = WRet (e, s2, mem2, w2).
Proof.
  induction h as [|x h IH]; intros s mem w s2 mem2 w2 H; cbn [app] in H; inversion H as [|? ? ? ? ? ? ? ? ? ? ? ? H1 H2]; subst.
  - inversion H2; subst. do 3 eexists. split; [constructor|exact H1].
  - destruct (IH _ _ _ _ _ _ H2) as (s3 & mem3 & w3 & K1 & K2). do 3 eexists. split; [econstructor; eauto|exact K2].
Qed.
Lemma sent_flush (hs : list (edit_hook W)) s mem h ls s1 mem1 : sent hs s mem h ls s1 mem1 -> sent hs s mem (h ++ [(EFlush, None)]) ls s1 mem1.
Proof. induction 1; cbn [app]; try (econstructor; eassumption). repeat constructor. Qed.

Theorem edits_arrive (hs : list (edit_hook W)) script size tmo s0 mem0 h s mem (w : writer) :
  edit_calls dstep hs s0 mem0 (fresh script size [] tmo) h s mem w -> wr_err w = None ->
  exists ls pending, sent hs s0 mem0 h ls s mem /\ concat ls = delivered (cn_trace (wr_conn w)) ++ pending /\
    (forall h' e, h = h' ++ [(EFlush, e)] -> pending = []).
Proof.
  intros H He. pose proof (fresh_reached (dst:=dst) dinit dstep script size tmo s0) as R0.
  assert (DT : forall o, Forall line_op o -> Forall (fun r : wop * (nat * option error) => data_op (fst r)) (done o)).
  { induction 1 as [|y l Hy _ IH]; constructor; auto. destruct y; try contradiction; exact I. }
  destruct h as [|[o e] h _] using rev_ind.
  - destruct (edit_calls_reached _ _ _ _ _ _ _ _ _ _ H [] He R0) as (ls & ops & K1 & <- & K3 & [K4 _]).
    destruct (in_order dinit dstep _ _ _ _ _ _ _ _ _ _ K4 (DT _ K3) He) as (pending & P1 & _). exists (op_lines ops), pending.
    split; [exact K1|]. split; [exact P1|]. intros h' e E. now destruct h'.
  - destruct (edit_calls_split _ _ _ _ _ _ _ _ _ _ H) as (s1 & mem1 & w1 & H1 & H2). pose proof (edit_call_err _ _ _ _ _ _ _ _ _ H2 He) as He1.
    destruct o as [i| |i d].
    1,3: destruct (edit_calls_reached _ _ _ _ _ _ _ _ _ _ H [] He R0) as (ls & ops & K1 & <- & K3 & [K4 _]);
      destruct (in_order dinit dstep _ _ _ _ _ _ _ _ _ _ K4 (DT _ K3) He) as (pending & P1 & _); exists (op_lines ops), pending;
      split; [exact K1|]; split; [exact P1|]; intros h' e' E; apply app_inj_tail in E; destruct E; discriminate.
    destruct (edit_calls_reached _ _ _ _ _ _ _ _ _ _ H1 [] He1 R0) as (ls & ops & K1 & <- & K3 & K4). cbn [app] in K4.
    destruct (edit_flush_reached _ _ _ _ _ _ _ _ _ _ _ H2 He K4) as (-> & -> & -> & [R2 _]). rewrite op_lines_app in R2. cbn [op_lines flat_map] in R2. rewrite app_nil_r in R2.
    destruct (in_order dinit dstep _ _ _ _ _ _ _ _ _ _ R2) as (pending & P1 & P2); [apply DT, Forall_app; split; [exact K3|repeat constructor]|exact He|].
    exists (op_lines ops), pending. split; [apply sent_flush; exact K1|]. split; [exact P1|]. intros _ _ _. rewrite done_app in P2. exact (P2 _ 0 eq_refl).
Qed.
End Looking.
