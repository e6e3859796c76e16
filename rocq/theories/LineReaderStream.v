(** The stream semantics of the line reader. *)
From Verif Require Import Base BaseFacts LineReader SpecLine LineReaderFacts.

Lemma eventually_and P Q : eventually P -> eventually Q -> eventually (fun f => P f /\ Q f).
Proof.
  intros [a Ha] [b Hb]. exists (a + b). intros f Hf. split; [apply Ha|apply Hb]; lia.
Qed.
Lemma eventually_S P : eventually (fun f => P (S f)) -> eventually P.
Proof. intros [a Ha]. exists (S a). intros [|f] Hf; [lia|]. apply Ha. lia. Qed.
Lemma eventually_mono (P Q : nat -> Prop) : (forall f, P f -> Q f) -> eventually P -> eventually Q.
Proof. intros H [a Ha]. exists a. auto. Qed.
Lemma eventually_all (P : nat -> Prop) : (forall f, P f) -> eventually P.
Proof. intros H. exists 0. auto. Qed.

Section Stream.
Context {W zstate : Type} (act : zstate -> zaction zstate).
Notation reader := (reader W zstate).

(** ReadLine's loop ends with [out]. *)
Definition rl (w : W) (line : bytes) (r : reader) (out : line_out * W * reader) : Prop :=
  eventually (fun f => read_loop act f w line r = Some out).

Definition over (r : reader) (line : bytes) : bool :=
  ((0 <? rd_max r) && (rd_max r <=? Z.of_nat (length line)))%Z%bool.

Lemma over_false r line n : within (rd_max r) n -> length line < n -> over r line = false.
Proof.
  unfold over, within. intros [H|H] Hn.
  - destruct (Z.ltb_spec 0 (rd_max r)); [lia|reflexivity].
  - destruct (Z.leb_spec (rd_max r) (Z.of_nat (length line))); [lia|apply andb_false_r].
Qed.

Lemma rl_over w line r : over r line = true -> rl w line r (LErr None err_exhausted, w, r).
Proof.
  intros H. apply eventually_S, eventually_all. intros f. cbn [read_loop]. unfold over in H. now rewrite H.
Qed.

Lemma rl_more w line r pref r' out : over r line = false ->
  eventually (fun f => scan act f r = Some (ROk (pref, true), r')) ->
  rl w (line ++ pref) r' out -> rl w line r out.
Proof.
  intros Ho H1 H2. apply eventually_S. eapply eventually_mono; [|exact (eventually_and _ _ H1 H2)].
  intros f [E1 E2]. cbn [read_loop]. unfold over in Ho. rewrite Ho, E1. exact E2.
Qed.

Lemma rl_line w line r pref r' out : over r line = false ->
  eventually (fun f => scan act f r = Some (ROk (pref, false), r')) ->
  match run_hooks (rd_hooks r') w (line ++ pref) with
  | (w', HPass) => out = (LLine (line ++ pref), w', r')
  | (w', HErr e) => out = (LErr None e, w', r')
  | (w', HDrop) => rl w' [] r' out
  end -> rl w line r out.
Proof.
  intros Ho H1 H2. apply eventually_S.
  destruct (run_hooks (rd_hooks r') w (line ++ pref)) as [w' [| |e]] eqn:E.
  - eapply eventually_mono; [|exact H1].
    intros f E1. cbn [read_loop]. unfold over in Ho. rewrite Ho, E1, E. now subst.
  - eapply eventually_mono; [|exact (eventually_and _ _ H1 H2)].
    intros f [E1 E2]. cbn [read_loop]. unfold over in Ho. rewrite Ho, E1, E. exact E2.
  - eapply eventually_mono; [|exact H1].
    intros f E1. cbn [read_loop]. unfold over in Ho. rewrite Ho, E1, E. now subst.
Qed.

Lemma rl_switch w line r r' out : over r line = false ->
  eventually (fun f => scan act f r = Some (RErr EEOF, r')) -> rd_zlib_on r' = true ->
  rl w line (with_mode false false r') out -> rl w line r out.
Proof.
  intros Ho H1 Hz H2. apply eventually_S. eapply eventually_mono; [|exact (eventually_and _ _ H1 H2)].
  intros f [E1 E2]. cbn [read_loop]. unfold over in Ho. rewrite Ho, E1, Hz. exact E2.
Qed.

Lemma is_line_app delim a l : ~ In delim a -> is_line delim l -> is_line delim (a ++ l).
Proof.
  intros H (b & -> & Hb). exists (a ++ b). split; [now rewrite app_assoc|]. rewrite in_app_iff. tauto.
Qed.

Lemma is_line_inj delim l t l' t' :
  is_line delim l -> is_line delim l' -> l ++ t = l' ++ t' -> l = l' /\ t = t'.
Proof.
  intros (b & -> & Hb) (b' & -> & Hb') H. rewrite <- !app_assoc in H. cbn [app] in H.
  pose proof (cut_app delim b t Hb) as E. rewrite H, (cut_app delim b' t' Hb') in E.
  injection E as -> ->. auto.
Qed.

Lemma is_line_prefix delim a s l t :
  ~ In delim a -> is_line delim l -> a ++ s = l ++ t -> length a < length l.
Proof.
  intros Ha (b & -> & Hb) H. destruct (Nat.ltb_spec (length a) (length (b ++ [delim]))); [assumption|].
  destruct (app_split a s (b ++ [delim]) t H) as (e & -> & _); [lia|].
  exfalso. apply Ha. rewrite !in_app_iff. cbn. tauto.
Qed.

Lemma over_cfg r r' line : same_cfg r r' -> over r' line = over r line.
Proof. intros (_ & H & _). unfold over. now rewrite H. Qed.

(** A complete line within the limit. *)
Lemma loop_line st ce : forall m r s line l t,
  feeds act st ce m r s -> line ++ s = l ++ t -> is_line (rd_delim r) l -> ~ In (rd_delim r) line ->
  within (rd_max r) (length l) ->
  exists m' r', feeds act st ce m' r' t /\ m' < m /\ same_cfg r r' /\ (bufs_ok r -> bufs_ok r') /\
    forall w out,
      match run_hooks (rd_hooks r) w l with
      | (w', HPass) => out = (LLine l, w', r')
      | (w', HErr e) => out = (LErr None e, w', r')
      | (w', HDrop) => rl w' [] r' out
      end -> rl w line r out.
Proof.
  induction m as [m IH] using lt_wf_ind. intros r s line l t Hf Hs Hl Hn Hw.
  pose proof (is_line_prefix _ _ _ _ _ Hn Hl Hs) as Hlt.
  pose proof (over_false r line _ Hw Hlt) as Ho.
  destruct (scan_ok _ _ act st ce m r s Hf) as [(pref & more & r' & m' & s' & H1 & H2 & H3 & H4 & H5 & H6 & [[-> H7]|[-> H7]])|[(r' & m' & H1 & H2 & H3 & H4 & H5 & H6)|[-> Hd]]].
  - rewrite H2, app_assoc in Hs.
    pose proof H5 as (G1 & G2 & G3 & G4).
    destruct (IH m' H4 r' s' (line ++ pref) l t H3 Hs) as (m2 & r2 & K1 & K2 & K3 & K4 & K5).
    { now rewrite G1. } { rewrite G1, in_app_iff. tauto. } { now rewrite G2. }
    exists m2, r2. split; [exact K1|]. split; [lia|]. split; [eapply same_cfg_trans; eassumption|].
    split; [intros Hb; apply K4, H6, Hb|].
    intros w out Hout. eapply rl_more; [exact Ho|exact H1|]. apply K5. now rewrite G4.
  - rewrite H2, app_assoc in Hs.
    apply (is_line_inj (rd_delim r)) in Hs; [|now apply is_line_app|exact Hl]. destruct Hs as [<- <-].
    exists m', r'. split; [exact H3|]. split; [exact H4|]. split; [exact H5|]. split; [intros Hb; apply H6, Hb|].
    intros w out Hout. eapply rl_line; [exact Ho|exact H1|]. destruct H5 as (_ & _ & _ & ->). exact Hout.
  - assert (G : same_cfg r (with_mode false false r')) by (destruct H5 as (?&?&?&?); repeat split; assumption).
    pose proof G as (G1 & G2 & G3 & G4).
    destruct (IH m' H4 _ s line l t H3 Hs) as (m2 & r2 & K1 & K2 & K3 & K4 & K5).
    { now rewrite G1. } { now rewrite G1. } { now rewrite G2. }
    exists m2, r2. split; [exact K1|]. split; [lia|]. split; [eapply same_cfg_trans; eassumption|].
    split; [intros Hb; apply K4, H6, Hb|].
    intros w out Hout. eapply rl_switch; [exact Ho|exact H1|exact H2|]. apply K5. now rewrite G4.
  - exfalso. rewrite app_nil_r in Hs. subst line. rewrite app_length in Hlt. lia.
Qed.

(** No delimiter before the end of the data. *)
Lemma loop_rest st ce : forall m r s line,
  feeds act st ce m r s -> ~ In (rd_delim r) (line ++ s) ->
  within (rd_max r) (S (length (line ++ s))) ->
  exists r', drained ce r' /\ same_cfg r r' /\ (bufs_ok r -> bufs_ok r') /\
    forall w out, rl w (line ++ s) r' out -> rl w line r out.
Proof.
  induction m as [m IH] using lt_wf_ind. intros r s line Hf Hn Hw.
  assert (Ho : over r line = false).
  { apply (over_false r line _ Hw). rewrite app_length. lia. }
  destruct (scan_ok _ _ act st ce m r s Hf) as [(pref & more & r' & m' & s' & H1 & H2 & H3 & H4 & H5 & H6 & [[-> H7]|[-> H7]])|[(r' & m' & H1 & H2 & H3 & H4 & H5 & H6)|[-> Hd]]].
  - rewrite H2, app_assoc in *. pose proof H5 as (G1 & G2 & G3 & G4).
    destruct (IH m' H4 r' s' (line ++ pref) H3) as (r2 & K1 & K2 & K3 & K4).
    { now rewrite G1. } { now rewrite G2. }
    exists r2. split; [exact K1|]. split; [eapply same_cfg_trans; eassumption|].
    split; [intros Hb; apply K3, H6, Hb|].
    intros w out Hout. eapply rl_more; [exact Ho|exact H1|]. apply K4, Hout.
  - exfalso. apply Hn. rewrite H2, !in_app_iff. destruct H7 as (b & -> & _). rewrite in_app_iff. cbn. tauto.
  - assert (G : same_cfg r (with_mode false false r')) by (destruct H5 as (?&?&?&?); repeat split; assumption).
    pose proof G as (G1 & G2 & G3 & G4).
    destruct (IH m' H4 _ s line H3) as (r2 & K1 & K2 & K3 & K4).
    { now rewrite G1. } { now rewrite G2. }
    exists r2. split; [exact K1|]. split; [eapply same_cfg_trans; eassumption|].
    split; [intros Hb; apply K3, H6, Hb|].
    intros w out Hout. eapply rl_switch; [exact Ho|exact H1|exact H2|]. apply K4, Hout.
  - exists r. split; [exact Hd|]. split; [apply same_cfg_refl|]. split; [auto|].
    intros w out. now rewrite app_nil_r.
Qed.

(** Too long: the first [max + 2047] bytes contain no delimiter. *)
Lemma loop_long st ce : forall m r s line big t,
  feeds act st ce m r s -> bufs_ok r -> line ++ s = big ++ t -> ~ In (rd_delim r) line -> ~ In (rd_delim r) big ->
  (0 < rd_max r)%Z -> (rd_max r + Z.of_nat read_buf - 1 <= Z.of_nat (length big))%Z ->
  exists m' r' line' s', feeds act st ce m' r' s' /\ same_cfg r r' /\ bufs_ok r' /\
    line ++ s = line' ++ s' /\ (length line <= length line') /\
    (Z.of_nat (length line) < rd_max r + Z.of_nat read_buf ->
     Z.of_nat (length line') < rd_max r + Z.of_nat read_buf)%Z /\
    (rd_max r <= Z.of_nat (length line'))%Z /\
    forall w, rl w line r (LErr None err_exhausted, w, r').
Proof.
  induction m as [m IH] using lt_wf_ind. intros r s line big t Hf Hb Hs Hn Hbig Hpos Hlen.
  destruct (over r line) eqn:Ho.
  - exists m, r, line, s. split; [exact Hf|]. split; [apply same_cfg_refl|]. split; [exact Hb|].
    split; [reflexivity|]. split; [lia|]. split; [lia|].
    split. { unfold over in Ho. apply andb_true_iff in Ho as [_ Ho]. lia. }
    intros w. now apply rl_over.
  - assert (Hlt : (Z.of_nat (length line) < rd_max r)%Z).
    { unfold over in Ho. apply andb_false_iff in Ho as [Ho|Ho]; lia. }
    destruct (scan_ok _ _ act st ce m r s Hf) as [(pref & more & r' & m' & s' & H1 & H2 & H3 & H4 & H5 & H6 & [[-> H7]|[-> H7]])|[(r' & m' & H1 & H2 & H3 & H4 & H5 & H6)|[-> Hd]]].
    + destruct (H6 Hb) as [Hb' Hp]. pose proof H5 as (G1 & G2 & G3 & G4).
      rewrite H2, app_assoc in Hs.
      destruct (IH m' H4 r' s' (line ++ pref) big t H3 Hb' Hs) as (m2 & r2 & line' & s2 & K1 & K2 & K3 & K4 & K5 & K6 & K7 & K8).
      { rewrite G1, in_app_iff. tauto. } { now rewrite G1. } { now rewrite G2. } { now rewrite G2. }
      exists m2, r2, line', s2. split; [exact K1|]. split; [eapply same_cfg_trans; eassumption|].
      split; [exact K3|]. split; [now rewrite H2, app_assoc|].
      rewrite G2 in *. split; [rewrite app_length in K5; lia|]. split.
      { intros _. apply K6. rewrite app_length. lia. }
      split; [exact K7|]. intros w. eapply rl_more; [exact Ho|exact H1|apply K8].
    + exfalso. destruct (H6 Hb) as [Hb' Hp]. rewrite H2, app_assoc in Hs.
      destruct (app_split big t (line ++ pref) s' (eq_sym Hs)) as (e & -> & _).
      { rewrite app_length. unfold read_buf in *. lia. }
      apply Hbig. rewrite !in_app_iff. destruct H7 as (b & -> & _). rewrite in_app_iff. cbn. tauto.
    + assert (G : same_cfg r (with_mode false false r')) by (destruct H5 as (?&?&?&?); repeat split; assumption).
      pose proof G as (G1 & G2 & G3 & G4).
      destruct (IH m' H4 _ s line big t H3 (H6 Hb) Hs) as (m2 & r2 & line' & s2 & K1 & K2 & K3 & K4 & K5 & K6 & K7 & K8).
      { now rewrite G1. } { now rewrite G1. } { now rewrite G2. } { now rewrite G2. }
      exists m2, r2, line', s2. rewrite G2 in *. repeat (split; [first [exact K1|eapply same_cfg_trans; eassumption|assumption]|]).
      intros w. eapply rl_switch; [exact Ho|exact H1|exact H2|apply K8].
    + exfalso. rewrite app_nil_r in Hs. apply (f_equal (@length byte)) in Hs. rewrite app_length in Hs.
      unfold read_buf in *. lia.
Qed.

(** ** Sequences of calls *)

Definition rls (n : nat) (w : W) (r : reader) (out : list line_out * W * reader) : Prop :=
  eventually (fun f => read_lines act f n w r = Some out).

Lemma rl_read_line w r out : rd_open r = true -> rl w [] r out ->
  eventually (fun f => read_line act f w r = Some out).
Proof. intros Ho. apply eventually_mono. intros f H. unfold read_line. now rewrite Ho. Qed.

Lemma rls_cons n w r o w1 r1 os w2 r2 : rd_open r = true ->
  rl w [] r (o, w1, r1) -> rls n w1 r1 (os, w2, r2) -> rls (S n) w r (o :: os, w2, r2).
Proof.
  intros Ho H1 H2. apply (rl_read_line _ _ _ Ho) in H1.
  eapply eventually_mono; [|exact (eventually_and _ _ H1 H2)].
  intros f [E1 E2]. cbn [read_lines]. now rewrite E1, E2.
Qed.

Lemma rls_0 w r : rls 0 w r ([], w, r).
Proof. apply eventually_all. reflexivity. Qed.

Lemma drained_eof r w line : drained [] r -> over r line = false ->
  exists r', drained [] r' /\ same_cfg r r' /\ rl w line r (LErr (Some line) EEOF, w, r').
Proof.
  intros (H1 & H2 & H3 & H4) Ho. exists (with_plain [] [] r).
  split; [repeat split; cbn; auto|]. split; [repeat split|].
  apply eventually_S, eventually_all. intros f. cbn [read_loop]. unfold over in Ho. rewrite Ho.
  unfold scan, cur_buf. rewrite H1, H4. unfold under_read. rewrite H1, H3. cbn. rewrite H2, H4. reflexivity.
Qed.

Lemma drained_err r w line e ce : drained (RD [] (Some e) :: ce) r -> over r line = false ->
  exists r', drained ce r' /\ same_cfg r r' /\ rl w line r (LErr (Some line) e, w, r').
Proof.
  intros (H1 & H2 & H3 & H4) Ho. exists (with_plain ce [] r).
  split; [repeat split; cbn; auto|]. split; [repeat split|].
  apply eventually_S, eventually_all. intros f. cbn [read_loop]. unfold over in Ho. rewrite Ho.
  unfold scan, cur_buf. rewrite H1, H4. unfold under_read. rewrite H1, H3. cbn. rewrite H2, H4, andb_false_r. reflexivity.
Qed.

Lemma over_nil r : over r [] = false.
Proof.
  unfold over. change (Z.of_nat (length (@nil byte))) with 0%Z. destruct (Z.ltb_spec 0 (rd_max r)); [|reflexivity].
  destruct (Z.leb_spec (rd_max r) 0); [lia|reflexivity].
Qed.

Lemma drained_forever n : forall r w, rd_open r = true -> drained [] r ->
  exists r', drained [] r' /\ same_cfg r r' /\ rls n w r (repeat (LErr (Some []) EEOF) n, w, r').
Proof.
  induction n as [|n IH]; intros r w Ho Hd.
  - exists r. split; [exact Hd|]. split; [apply same_cfg_refl|apply rls_0].
  - destruct (drained_eof r w [] Hd (over_nil r)) as (r1 & H1 & H2 & H3).
    assert (Ho1 : rd_open r1 = true) by (destruct H2 as (_ & _ & -> & _); exact Ho).
    destruct (IH r1 w Ho1 H1) as (r2 & K1 & K2 & K3).
    exists r2. split; [exact K1|]. split; [eapply same_cfg_trans; eassumption|].
    cbn [repeat]. eapply rls_cons; eassumption.
Qed.

Lemma verdict_run (hs : list (hook W)) w l w' v : verdict hs w l w' v -> run_hooks hs w l = (w', v).
Proof.
  induction 1 as [w l|h hs w l w1 w2 v H1 _ IH|h hs w l w1 v H1 Hv]; cbn; [reflexivity|now rewrite H1|].
  rewrite H1. destruct v; congruence.
Qed.

Lemma run_verdict (hs : list (hook W)) : forall w l, verdict hs w l (fst (run_hooks hs w l)) (snd (run_hooks hs w l)).
Proof.
  induction hs as [|h hs IH]; intros w l; cbn; [constructor|].
  destruct (h w l) as [w1 v] eqn:E. destruct v; cbn; [eapply v_pass; [exact E|apply IH]|..];
    apply v_stop; congruence.
Qed.

(** The whole history up to the next delivered result. *)
Lemma feeds_report st ce : forall ls s rest m r w outs w',
  feeds act st ce m r s -> lines_of (rd_delim r) s ls rest ->
  Forall (fun l => within (rd_max r) (length l)) ls ->
  reported (rd_hooks r) w ls outs w' ->
  match outs with
  | [] => exists m1 r1, feeds act st ce m1 r1 rest /\ same_cfg r r1 /\
            forall out, rl w' [] r1 out -> rl w [] r out
  | o :: os => exists m1 r1 w1 s1 ls1, feeds act st ce m1 r1 s1 /\ same_cfg r r1 /\
            lines_of (rd_delim r) s1 ls1 rest /\
            Forall (fun l => within (rd_max r) (length l)) ls1 /\
            reported (rd_hooks r) w1 ls1 os w' /\ rl w [] r (o, w1, r1)
  end.
Proof.
  induction ls as [|l ls IH]; intros s rest m r w outs w' Hf (Hs & Hl & Hr) Hw Hrep.
  - inversion Hrep; subst. cbn [concat app] in *. exists m, r. split; [exact Hf|]. split; [apply same_cfg_refl|auto].
  - cbn [concat] in Hs. rewrite <- app_assoc in Hs. inversion Hl as [|? ? Hl1 Hl2]; subst.
    inversion Hw as [|? ? Hw1 Hw2]; subst.
    destruct (loop_line st ce m r _ [] l (concat ls ++ rest) Hf eq_refl Hl1) as (m1 & r1 & H1 & H2 & H3 & H4 & H5);
      [cbn; tauto|exact Hw1|].
    assert (Hlo : lines_of (rd_delim r) (concat ls ++ rest) ls rest) by (split; auto).
    inversion Hrep as [|? ? ? wa os wb Hv Hr'|? ? ? wa os wb Hv Hr'|? ? ? wa e os wb Hv Hr']; subst;
      apply verdict_run in Hv.
    + exists m1, r1, wa, (concat ls ++ rest), ls. repeat (split; [assumption|]).
      apply H5. rewrite Hv. reflexivity.
    + pose proof H3 as (G1 & G2 & G3 & G4).
      specialize (IH (concat ls ++ rest) rest m1 r1 wa outs w' H1). rewrite G1, G2, G4 in IH.
      specialize (IH Hlo Hw2 Hr'). destruct outs as [|o os].
      * destruct IH as (m2 & r2 & K1 & K2 & K3). exists m2, r2. split; [exact K1|].
        split; [eapply same_cfg_trans; eassumption|]. intros out Hout. apply H5. rewrite Hv. now apply K3.
      * destruct IH as (m2 & r2 & w2 & s2 & ls2 & K1 & K2 & K3 & K4 & K5 & K6).
        exists m2, r2, w2, s2, ls2. split; [exact K1|]. split; [eapply same_cfg_trans; eassumption|].
        repeat (split; [assumption|]). apply H5. rewrite Hv. exact K6.
    + exists m1, r1, wa, (concat ls ++ rest), ls. repeat (split; [assumption|]).
      apply H5. rewrite Hv. reflexivity.
Qed.

Lemma then_eof_cons n o os rest : then_eof (S n) (o :: os) rest = o :: then_eof n os rest.
Proof.
  unfold then_eof. cbn [app firstn]. f_equal.
  rewrite !firstn_app. f_equal. set (k := n - length os).
  assert (Hk : k <= n) by (unfold k; lia). clearbody k.
  destruct k; [reflexivity|]. cbn [firstn]. f_equal.
  change (repeat (LErr (Some []) EEOF) (S n)) with (repeat (LErr (Some []) EEOF) (1 + n)).
  replace (1 + n) with (n + 1) by lia. rewrite repeat_app, firstn_app, repeat_length.
  replace (k - n) with 0 by lia. cbn [firstn]. now rewrite app_nil_r.
Qed.

Lemma then_eof_nil n rest : then_eof (S n) [] rest = LErr (Some rest) EEOF :: repeat (LErr (Some []) EEOF) n.
Proof.
  unfold then_eof. cbn [app firstn]. f_equal. replace (S n) with (n + 1) by lia. rewrite repeat_app, firstn_app, repeat_length.
  rewrite Nat.sub_diag. cbn [firstn]. rewrite app_nil_r. rewrite <- (repeat_length (LErr (Some []) EEOF) n) at 1. apply firstn_all.
Qed.

Theorem feeds_read_lines st : forall n ls s rest m r w outs w',
  feeds act st [] m r s -> rd_open r = true -> lines_of (rd_delim r) s ls rest ->
  Forall (fun l => within (rd_max r) (length l)) ls -> within (rd_max r) (S (length rest)) ->
  reported (rd_hooks r) w ls outs w' ->
  exists w2 r2, rls n w r (then_eof n outs rest, w2, r2) /\ same_cfg r r2 /\
    (length outs < n -> w2 = w' /\ drained [] r2).
Proof.
  induction n as [|n IH]; intros ls s rest m r w outs w' Hf Hop Hlo Hw Hwr Hrep.
  - exists w, r. split; [apply rls_0|]. split; [apply same_cfg_refl|lia].
  - pose proof (feeds_report st [] ls s rest m r w outs w' Hf Hlo Hw Hrep) as H.
    destruct outs as [|o os].
    + destruct H as (m1 & r1 & H1 & H2 & H3). pose proof H2 as (G1 & G2 & G3 & G4).
      destruct (loop_rest st [] m1 r1 rest [] H1) as (r2 & K1 & K2 & K3 & K4).
      { rewrite G1. apply Hlo. } { now rewrite G2. }
      assert (Ho2 : over r2 rest = false).
      { rewrite (over_cfg r1 r2 _ K2), (over_cfg r r1 _ H2). apply (over_false r rest _ Hwr). lia. }
      destruct (drained_eof r2 w' rest K1 Ho2) as (r3 & L1 & L2 & L3).
      pose proof (same_cfg_trans _ _ _ _ _ (same_cfg_trans _ _ _ _ _ H2 K2) L2) as C3.
      destruct (drained_forever n r3 w') as (r4 & M1 & M2 & M3).
      { destruct C3 as (_ & _ & -> & _). exact Hop. } { exact L1. }
      exists w', r4. split; [|split; [eapply same_cfg_trans; eassumption|auto]].
      rewrite then_eof_nil. eapply rls_cons; [exact Hop| |exact M3].
      apply H3. exact (K4 w' _ L3).
    + destruct H as (m1 & r1 & w1 & s1 & ls1 & H1 & H2 & H3 & H4 & H5 & H6).
      pose proof H2 as (G1 & G2 & G3 & G4).
      destruct (IH ls1 s1 rest m1 r1 w1 os w' H1) as (w2 & r2 & K1 & K2 & K3).
      { congruence. } { now rewrite G1. } { now rewrite G2. } { now rewrite G2. } { now rewrite G4. }
      exists w2, r2. rewrite then_eof_cons. split; [eapply rls_cons; eassumption|].
      split; [eapply same_cfg_trans; eassumption|]. cbn [length]. intros. apply K3. lia.
Qed.
End Stream.
