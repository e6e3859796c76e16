(** Lemmas about WriteMsg with messages of a program. *)
From Verif Require Import Base BaseFacts NmdcText NmdcMessage LineReader LineWriter SpecEdit LineEditFacts NmdcWriterFacts SpecFrame NmdcProgram SpecProgram.

Lemma put_last_space b c : put_last (length (b ++ [c])) (b ++ [c]) = Some (b ++ [delimiter]).
Proof.
  rewrite app_length. cbn [length]. rewrite Nat.add_1_r. cbn [put_last]. f_equal. rewrite firstn_app, Nat.sub_diag, firstn_all, app_nil_r. f_equal. f_equal.
  apply skipn_all2. rewrite app_length. cbn. lia.
Qed.
Lemma head_form t : t <> [] -> msg_head t = B "$" ++ t ++ B " ". Proof. destruct t; [easy|reflexivity]. Qed.

Section Facts.
Context {W A dst : Type} (dstep : dst -> dop -> dst * list bytes).
Variable M : methods W A.

Lemma gives_to a enc s s' d r buf : gives M a enc s s' d r -> program_to M enc s buf a =
  match r with
  | PDone =>
      match d with
      | [] => match p_type M a with
              | [] => match put_last (length buf) buf with Some b => (s', b, PDone) | None => (s', buf, PPanic) end
              | t => (s', buf ++ B "$" ++ t ++ B "|", PDone)
              end
      | _ => (s', buf ++ msg_head (p_type M a) ++ d ++ B "|", PDone)
      end
  | _ => (s', buf ++ msg_head (p_type M a) ++ d, r)
  end.
Proof.
  intros G. unfold program_to. rewrite (G (buf ++ msg_head (p_type M a))). destruct r; rewrite <- ?app_assoc; try reflexivity.
  destruct d as [|c d].
  - rewrite app_nil_r, Nat.eqb_refl. destruct (p_type M a) as [|c t] eqn:T.
    + cbn [msg_head]. rewrite app_nil_r. reflexivity.
    + rewrite head_form by discriminate. replace (buf ++ B "$" ++ (c :: t) ++ B " ") with ((buf ++ B "$" ++ c :: t) ++ [" "%byte]) by (now rewrite <- !app_assoc).
      rewrite put_last_space, <- !app_assoc. reflexivity.
  - rewrite !app_length. cbn [length]. destruct (Nat.eqb_spec (length buf + length (msg_head (p_type M a))) (length buf + (length (msg_head (p_type M a)) + S (length d)))); [lia|reflexivity].
Qed.

(** One frame, appended to the buffer. *)
Lemma frame_to a enc s s' d f buf : gives M a enc s s' d PDone -> framed (p_type M a) d f -> program_to M enc s buf a = (s', buf ++ f, PDone).
Proof.
  intros G F. rewrite (gives_to _ _ _ _ _ _ buf G). remember (p_type M a) as t. destruct F as [p N|t N|t p N N'].
  - destruct p; [easy|]. reflexivity.
  - destruct t; [easy|]. reflexivity.
  - destruct p; [easy|]. rewrite head_form by exact N. now rewrite <- !app_assoc.
Qed.
Lemma framed_ex t d : t <> [] \/ d <> [] -> exists f, framed t d f.
Proof. intros N. destruct t as [|c t], d as [|x d]; [destruct N; easy| | |]; eexists; constructor; discriminate. Qed.
Lemma framed_one t d f g : framed t d f -> framed t d g -> f = g.
Proof. intros H K. destruct H; inversion K; subst; auto; easy. Qed.

Lemma encoded_to (AP : appending M) enc s a : exists s' x, encoded M enc s a s' x /\
  match x with
  | Ok f => program_to M enc s [] a = (s', f, PDone)
  | Err e => exists b, program_to M enc s [] a = (s', b, PFail e)
  | Panic => exists b, program_to M enc s [] a = (s', b, PPanic)
  end.
Proof.
  destruct (AP a enc s) as (s' & d & r & G). exists s'. destruct r.
  - destruct (list_eq_dec byte_eq_dec (p_type M a) []) as [T|T]; [destruct d as [|c d]|].
    + exists Panic. split; [now apply en_nothing|]. exists []. rewrite (gives_to _ _ _ _ _ _ [] G), T. reflexivity.
    + destruct (framed_ex (p_type M a) (c :: d)) as [f F]; [right; discriminate|]. exists (Ok f). split; [now apply (en_frame M enc s a s' (c :: d))|].
      exact (frame_to _ _ _ _ _ _ [] G F).
    + destruct (framed_ex (p_type M a) d) as [f F]; [now left|]. exists (Ok f). split; [now apply (en_frame M enc s a s' d)|]. exact (frame_to _ _ _ _ _ _ [] G F).
  - exists (Err e). split; [now apply (en_error M enc s a s' d)|]. eexists. exact (gives_to _ _ _ _ _ _ [] G).
  - exists Panic. split; [now apply (en_panic M enc s a s' d)|]. eexists. exact (gives_to _ _ _ _ _ _ [] G).
Qed.
Lemma gives_one a enc s s1 d1 r1 s2 d2 r2 : gives M a enc s s1 d1 r1 -> gives M a enc s s2 d2 r2 -> s1 = s2 /\ d1 = d2 /\ r1 = r2.
Proof. intros G H. specialize (G []). specialize (H []). rewrite G in H. cbn in H. injection H as -> -> ->. auto. Qed.
Lemma encoded_one enc s a s1 x1 s2 x2 : encoded M enc s a s1 x1 -> encoded M enc s a s2 x2 -> s1 = s2 /\ x1 = x2.
Proof.
  intros H K. destruct H as [d f G F|G T|d e G|d G], K as [d' f' G' F'|G' T'|d' e' G'|d' G'];
    destruct (gives_one _ _ _ _ _ _ _ _ _ G G') as (-> & E & E'); try discriminate E'; subst; auto.
  - split; [reflexivity|]. f_equal. exact (framed_one _ _ _ _ F F').
  - rewrite T' in F. inversion F; easy.
  - rewrite T in F'. inversion F'; easy.
  - injection E' as ->. auto.
Qed.

Lemma ask_asked : forall (hs : list (phook W A)) s a s' a' v, ask_all hs s a = ((s', a'), v) <-> asked hs s a s' a' v.
Proof.
  intros hs s a s' a' v. split.
  - revert s a. induction hs as [|h hs IH]; intros s a H; cbn in H; [injection H as <- <- <-; constructor|].
    destruct (h s a) as [[s1 a1] [| |e]] eqn:E; [eapply as_pass; eauto|..]; injection H as <- <- <-; eapply as_stop; eauto; discriminate.
  - induction 1 as [s a|h hs s a s1 a1 s2 a2 v E _ IH|h hs s a s1 a1 v E N]; cbn; [reflexivity| |]; rewrite E; [exact IH|now destruct v].
Qed.

(** The loop of WriteMsg. *)
Lemma each_sent (AP : appending M) enc : forall l s x r s' x', send_each dstep M enc s l x = WRet (r, s', x') ->
  sent dstep M (pw_msg x) enc s l (pw_line x) r s' (pw_line x') /\ pw_msg x' = pw_msg x.
Proof.
  induction l as [|a l IH]; intros s x r s' x' H; cbn [send_each] in H.
  - injection H as <- <- <-. split; [constructor|reflexivity].
  - destruct (ask_all (pw_msg x) s a) as [[s1 a1] [| |e]] eqn:E; apply ask_asked in E.
    + destruct (encoded_to AP enc s1 a1) as (s2 & y & N & P). destruct y as [f|e|].
      * rewrite P in H. destruct (write_line dstep s2 f (pw_line x)) as [[[[e|] s3] w]| |] eqn:L; try discriminate.
        -- injection H as <- <- <-. split; [eapply sn_broken; eauto|reflexivity].
        -- destruct (IH _ _ _ _ _ H) as [H1 H2]. split; [eapply sn_line; eauto|exact H2].
      * destruct P as [b P]. rewrite P in H. injection H as <- <- <-. split; [eapply sn_error; eauto|reflexivity].
      * destruct P as [b P]. rewrite P in H. injection H as <- <- <-. split; [eapply sn_panic; eauto|reflexivity].
    + injection H as <- <- <-. split; [eapply sn_drop; eauto|reflexivity].
    + injection H as <- <- <-. split; [eapply sn_refuse; eauto|reflexivity].
Qed.
Lemma sent_each (AP : appending M) hs enc s l w r s' w' : sent dstep M hs enc s l w r s' w' -> forall m, exists m',
  send_each dstep M enc s l (mkPwriter w hs m) = WRet (r, s', mkPwriter w' hs m').
Proof.
  assert (D : forall s a s2 x, encoded M enc s a s2 x -> match x with
    | Ok f => program_to M enc s [] a = (s2, f, PDone)
    | Err e => exists b, program_to M enc s [] a = (s2, b, PFail e)
    | Panic => exists b, program_to M enc s [] a = (s2, b, PPanic) end).
  { intros s0 a s2 x N. destruct (encoded_to AP enc s0 a) as (s3 & y & N' & P). destruct (encoded_one _ _ _ _ _ _ _ N N') as [-> ->]. exact P. }
  induction 1 as [s w|s a l w s1 a1 s2 f s3 w1 r s4 w2 E N L S IH|s a l w s1 a1 s2 f s3 w1 e E N L|s a l w s1 a1 E|s a l w s1 a1 e E|s a l w s1 a1 s2 e E N|s a l w s1 a1 s2 E N];
    intros m; cbn [send_each pw_msg pw_line]; try (apply ask_asked in E; rewrite E); try (eexists; reflexivity).
  - rewrite (D _ _ _ _ N), L. apply IH.
  - rewrite (D _ _ _ _ N), L. eexists. reflexivity.
  - destruct (D _ _ _ _ N) as [b P]. rewrite P. eexists. reflexivity.
  - destruct (D _ _ _ _ N) as [b P]. rewrite P. eexists. reflexivity.
Qed.

(** Any calls. *)
Lemma calls_program (AP : appending M) : forall os s x rs s' x', program_calls dstep M os s x = WRet (rs, s', x') ->
  length rs = length os /\ program dstep M (pw_msg x) s (pw_line x) (combine os rs) s' (pw_line x') /\ pw_msg x' = pw_msg x.
Proof.
  induction os as [|o os IH]; intros s x rs s' x' H; cbn [program_calls] in H.
  - injection H as <- <- <-. split; [reflexivity|]. split; [constructor|reflexivity].
  - destruct (program_call dstep M o s x) as [[[r s1] x1]| |] eqn:E; try discriminate.
    destruct (program_calls dstep M os s1 x1) as [[[rs1 s2] x2]| |] eqn:E2; try discriminate. injection H as <- <- <-.
    destruct (IH _ _ _ _ _ E2) as (L & P & K). cbn [length combine]. split; [now rewrite L|].
    destruct o as [l| | |enc]; cbn [program_call] in E.
    + unfold send_msgs in E. destruct (wr_err (pw_line x)) as [e|] eqn:Ee.
      * injection E as <- <- <-. split; [now apply pr_failed|exact K].
      * destruct (each_sent AP _ _ _ _ _ _ _ E) as [S K1]. rewrite K1 in *. destruct s as [st enc]. split; [|exact K]. eapply pr_msgs; eauto.
    + destruct (write_line dstep s [delimiter] (pw_line x)) as [[[e s3] w]| |] eqn:L1; try discriminate. injection E as <- <- <-. split; [|exact K]. eapply pr_keep; [exact L1|exact P].
    + destruct (flush dstep (pw_line x)) as [[e w]| |] eqn:L1; try discriminate. injection E as <- <- <-. split; [|exact K]. eapply pr_flush; [exact L1|exact P].
    + injection E as <- <- <-. destruct s as [st enc0]. split; [|exact K]. apply pr_set. exact P.
Qed.
Lemma program_runs (AP : appending M) hs s w h s' w' : program dstep M hs s w h s' w' -> forall m, exists m',
  program_calls dstep M (map fst h) s (mkPwriter w hs m) = WRet (map snd h, s', mkPwriter w' hs m').
Proof.
  induction 1 as [s w|s w e l h s' w' Ee P IH|st enc w l r s1 w1 h s' w' Ee S P IH|s w e s1 w1 h s' w' L P IH|s w e w1 h s' w' L P IH|st enc enc' w h s' w' P IH];
    intros m; cbn [map fst snd program_calls program_call pw_line pw_msg pw_mbuf].
  - now exists m.
  - unfold send_msgs. cbn [pw_line]. rewrite Ee. destruct (IH m) as [m' ->]. now exists m'.
  - unfold send_msgs. cbn [pw_line snd]. rewrite Ee. destruct (sent_each AP _ _ _ _ _ _ _ _ S m) as [m1 ->]. destruct (IH m1) as [m' ->]. now exists m'.
  - change [delimiter] with (B "|"). rewrite L. destruct (IH m) as [m' ->]. now exists m'.
  - rewrite L. destruct (IH m) as [m' ->]. now exists m'.
  - destruct (IH m) as [m' ->]. now exists m'.
Qed.

(** Messages which fail, whatever they do to the buffer. *)
Lemma to_fails enc s a : snd (p_marshal M a enc s (msg_head (p_type M a))) <> PDone ->
  exists b, program_to M enc s [] a = (fst (fst (p_marshal M a enc s (msg_head (p_type M a)))), b, snd (p_marshal M a enc s (msg_head (p_type M a)))).
Proof.
  intros N. unfold program_to. cbn [app]. destruct (p_marshal M a enc s (msg_head (p_type M a))) as [[s1 b1] r]. cbn [fst snd] in *. destruct r; [easy| |]; eexists; reflexivity.
Qed.

(** The scratch buffer does not matter. *)
Lemma each_scratch enc hs : forall l s w m r s' x', send_each dstep M enc s l (mkPwriter w hs m) = WRet (r, s', x') -> forall m2, exists m3,
  send_each dstep M enc s l (mkPwriter w hs m2) = WRet (r, s', mkPwriter (pw_line x') hs m3).
Proof.
  induction l as [|a l IH]; intros s w m r s' x' H m2; cbn [send_each pw_msg pw_line] in *.
  - injection H as <- <- <-. now exists m2.
  - destruct (ask_all hs s a) as [[s1 a1] [| |e]].
    + destruct (program_to M enc s1 [] a1) as [[s2 b] [|e|]]; try (injection H as <- <- <-; eexists; reflexivity).
      destruct (write_line dstep s2 b w) as [[[[e|] s3] w1]| |]; try discriminate; [injection H as <- <- <-; eexists; reflexivity|].
      exact (IH _ _ _ _ _ _ H b).
    + injection H as <- <- <-. now exists m2.
    + injection H as <- <- <-. now exists m2.
Qed.
Lemma calls_scratch hs : forall os s w m rs s' x', program_calls dstep M os s (mkPwriter w hs m) = WRet (rs, s', x') -> forall m2, exists m3,
  program_calls dstep M os s (mkPwriter w hs m2) = WRet (rs, s', mkPwriter (pw_line x') hs m3).
Proof.
  assert (ONE : forall o s w m r s' x', program_call dstep M o s (mkPwriter w hs m) = WRet (r, s', x') -> pw_msg x' = hs /\ forall m2, exists m3,
    program_call dstep M o s (mkPwriter w hs m2) = WRet (r, s', mkPwriter (pw_line x') hs m3)).
  { intros o s w m r s' x' H. destruct o as [l| | |enc]; cbn [program_call] in *.
    - unfold send_msgs in *. cbn [pw_line] in *. destruct (wr_err w) as [e|]; [injection H as <- <- <-; split; [reflexivity|]; intros m2; now exists m2|].
      split; [|intros m2; exact (each_scratch _ _ _ _ _ _ _ _ _ H m2)].
      revert H. generalize (snd s). intros enc. revert s w m. induction l as [|a l IH]; intros s w m H; cbn [send_each pw_msg pw_line] in H; [now injection H as <- <- <-|].
      destruct (ask_all hs s a) as [[s1 a1] [| |e]]; try (now injection H as <- <- <-).
      destruct (program_to M enc s1 [] a1) as [[s2 b] [|e|]]; try (now injection H as <- <- <-).
      destruct (write_line dstep s2 b w) as [[[[e|] s3] w1]| |]; try discriminate; [now injection H as <- <- <-|]. exact (IH _ _ _ H).
    - cbn [pw_line pw_msg] in *. destruct (write_line dstep s [delimiter] w) as [[[e s1] w1]| |]; try discriminate. injection H as <- <- <-. split; [reflexivity|]. intros m2. now exists m2.
    - cbn [pw_line pw_msg] in *. destruct (flush dstep w) as [[e w1]| |]; try discriminate. injection H as <- <- <-. split; [reflexivity|]. intros m2. now exists m2.
    - injection H as <- <- <-. split; [reflexivity|]. intros m2. now exists m2. }
  induction os as [|o os IH]; intros s w m rs s' x' H m2; cbn [program_calls] in *.
  - injection H as <- <- <-. now exists m2.
  - destruct (program_call dstep M o s (mkPwriter w hs m)) as [[[r s1] x1]| |] eqn:E; try discriminate.
    destruct (ONE _ _ _ _ _ _ _ E) as [K O]. destruct (O m2) as [m3 ->].
    destruct (program_calls dstep M os s1 x1) as [[[rs1 s2] x2]| |] eqn:E2; try discriminate. injection H as <- <- <-.
    destruct x1 as [w1 hs1 mb1]. cbn in K. subst hs1. cbn [pw_line]. destruct (IH _ _ _ _ _ _ E2 m3) as [m4 ->]. now exists m4.
Qed.
End Facts.

(** ** SetEncoder during a call *)
Section Alike.
Context {W A dst : Type} (dstep : dst -> dop -> dst * list bytes).
Variables M N : methods W A.
Hypothesis MN : alike_methods M N.

Lemma to_alike enc s t buf a : same_state s t -> let '(s', b, r) := program_to M enc s buf a in let '(t', c, q) := program_to N enc t buf a in
  same_state s' t' /\ b = c /\ r = q.
Proof.
  intros S. destruct MN as [HT HM]. unfold program_to. rewrite <- (HT a). set (b0 := buf ++ msg_head (p_type M a)).
  specialize (HM a enc s t b0 S). destruct (p_marshal M a enc s b0) as [[s1 b1] r1], (p_marshal N a enc t b0) as [[t1 c1] q1].
  destruct HM as (H1 & -> & ->). destruct q1; auto. destruct (_ =? _)%nat; auto. destruct (put_last _ _); auto.
Qed.
Lemma ask_alike : forall (hs ks : list (phook W A)) s t (a : A), Forall2 alike_hook hs ks -> same_state s t ->
  same_state (fst (fst (ask_all hs s a))) (fst (fst (ask_all ks t a))) /\ snd (fst (ask_all hs s a)) = snd (fst (ask_all ks t a)) /\ snd (ask_all hs s a) = snd (ask_all ks t a).
Proof.
  intros hs ks s t a F. revert s t a. induction F as [|h k hs ks H F IH]; intros s t a S; cbn [ask_all]; [auto|].
  specialize (H s t a S). destruct (h s a) as [[s1 a1] r1], (k t a) as [[t1 a2] r2]. cbn [fst snd] in H. destruct H as (H1 & <- & <-).
  destruct r1; auto.
Qed.
Lemma hooks_alike : forall (hs ks : list (hook (env W))) s t d, Forall2 (alike_line_hook (W:=W)) hs ks -> same_state s t ->
  same_state (fst (run_hooks hs s d)) (fst (run_hooks ks t d)) /\ snd (run_hooks hs s d) = snd (run_hooks ks t d).
Proof.
  intros hs ks s t d F. revert s t. induction F as [|h k hs ks H F IH]; intros s t S; cbn [run_hooks]; [auto|].
  specialize (H s t d S). destruct (h s d) as [s1 r1], (k t d) as [t1 r2]. cbn [fst snd] in H. destruct H as (H1 & <-). destruct r1; auto.
Qed.
(** Line writers of which the callbacks do the same, but for SetEncoder (cf. SpecProgram.v). *)
Definition alike_line (v w : writer (env W) dst) : Prop := same_but_callbacks v w /\ Forall2 alike_line_hook (wr_hooks v) (wr_hooks w).
Lemma line_alike s t d v w : same_state s t -> alike_line v w ->
  match write_line dstep s d v, write_line dstep t d w with
  | WRet (e, s', v'), WRet (e', t', w') => e = e' /\ same_state s' t' /\ alike_line v' w'
  | WPan, WPan | WStuck, WStuck => True
  | _, _ => False
  end.
Proof.
  intros S [H F]. rewrite (same_recall v w H) in *. set (ks := wr_hooks w) in *. clearbody ks. clear w H.
  change (wr_hooks (recall ks v)) with ks in F. unfold write_line. change (wr_err (recall ks v)) with (wr_err v). change (wr_hooks (recall ks v)) with ks.
  destruct (wr_err v); [split; [reflexivity|]; split; [exact S|]; split; [apply recall_same|exact F]|].
  destruct (hooks_alike _ _ s t d F S) as [H1 H2]. destruct (run_hooks (wr_hooks v) s d) as [s1 r1], (run_hooks ks t d) as [t1 r2]. cbn [fst snd] in *. subst r2.
  destruct r1 as [| |e].
  - rewrite line_body_recall.
    assert (KK : hks (timed (fun w1 => checked (bw_write dstep d w1) (fun w2 => WRet (None, w2))) v) v).
    { apply timed_hks. intros w1. apply checked_hks; [apply bw_loop_hks|reflexivity]. }
    destruct (timed _ v) as [[e v']| |]; cbn [lift_w]; try exact I. split; [reflexivity|]. split; [exact H1|]. split; [apply recall_same|].
    cbn in KK. rewrite KK. exact F.
  - split; [reflexivity|]. split; [exact H1|]. split; [apply recall_same|exact F].
  - split; [reflexivity|]. split; [exact H1|]. split; [now repeat split|exact F].
Qed.

Lemma each_alike enc : forall l s t x y, same_state s t -> alike_writer x y ->
  match send_each dstep M enc s l x, send_each dstep N enc t l y with
  | WRet (r, s', x'), WRet (q, t', y') => r = q /\ same_state s' t' /\ alike_writer x' y'
  | WPan, WPan | WStuck, WStuck => True
  | _, _ => False
  end.
Proof.
  induction l as [|a l IH]; intros s t x y S (H1 & H2 & H3); cbn [send_each]; [repeat split; auto; apply H1|].
  destruct (ask_alike _ _ s t a H3 S) as (K1 & K2 & K3).
  destruct (ask_all (pw_msg x) s a) as [[s1 a1] r1], (ask_all (pw_msg y) t a) as [[t1 a2] r2]. cbn [fst snd] in *. subst a2 r2.
  assert (AW : alike_writer x y) by (repeat split; auto; apply H1).
  destruct r1 as [| |e]; [|auto..].
  pose proof (to_alike enc s1 t1 [] a1 K1) as T. destruct (program_to M enc s1 [] a1) as [[s2 b] r], (program_to N enc t1 [] a1) as [[t2 c] q]. destruct T as (T1 & -> & ->).
  destruct q as [|e|]; [|auto..].
  pose proof (line_alike s2 t2 c _ _ T1 (conj H1 H2)) as L.
  destruct (write_line dstep s2 c (pw_line x)) as [[[[e|] s3] v]| |], (write_line dstep t2 c (pw_line y)) as [[[[e'|] t3] w]| |]; try easy; destruct L as (L1 & L2 & L3); try discriminate.
  - injection L1 as <-. split; [reflexivity|]. split; [exact L2|]. destruct L3. split; [|split]; auto.
  - apply IH; [exact L2|]. destruct L3. split; [|split]; auto.
Qed.
End Alike.
