(** Lemmas about whole ADC streams. *)
From Verif Require Import Base BaseFacts LineReader SpecLine LineReaderFacts LineReaderStream LineReaderOps LineTransport NmdcReaderFacts NmdcEndToEnd.
From Verif Require Import AdcText AdcValue AdcMessage AdcPacket SpecAdc SpecAdcMessage AdcPacketFacts AdcMessageFacts AdcCustomFacts SpecAdcRead AdcReadFacts AdcReadPackets
  AdcReader SpecAdcReader AdcEndToEnd SpecAdcStream.

Lemma unmarshal_sup pf s m f : unmarshal pf s m = Ok (ASup f) -> exists f0, m = ASup f0.
Proof. destruct m; cbn [unmarshal]; intros H; try (apply bind_ok in H; destruct H as (x0 & _ & H)); try discriminate H; eauto. Qed.
Lemma registry_sup f : In (ASup f) registry -> f = [].
Proof.
  intros I. assert (K : forallb (fun m => match m with ASup (_ :: _) => false | _ => true end) registry = true) by (vm_compute; reflexivity).
  rewrite forallb_forall in K. apply K in I. now destruct f.
Qed.
(** A decoded message is the same as itself: its map has no key twice. *)
Lemma decoded_same pf name s m : unmarshal_message pf name s = Ok m -> same_message m m.
Proof.
  intros H. destruct m as [t v|f| | | | | | | | |]; cbn [same_message]; auto. unfold unmarshal_message in H.
  destruct (registered name) as [m0|] eqn:R; [|cbn [unmarshal] in H; discriminate H]. unfold registered in R. apply find_some in R. destruct R as [I _].
  destruct (unmarshal_sup pf s m0 f H) as (f0 & ->). apply registry_sup in I. subst f0. cbn [unmarshal] in H. apply bind_ok in H. destruct H as (v & H & [= <-]).
  assert (F : Forall (fun f => length f = 4) (map unescape (values (B "AD") (split_byte " " s)) ++ map unescape (values (B "RM") (split_byte " " s)))).
  { unfold modfeatures_unmarshal in H. rewrite (mod_fields_decoded pf s _ (split_separated s)) in H. cbn [bind] in H. apply bind_ok in H. destruct H as (m1 & H1 & H2).
    apply mod_loop_err in H1, H2. now apply Forall_app. }
  destruct (modfeatures_entries pf s _ [] (split_separated s) F) as (m2 & E & D2 & G). rewrite H in E. injection E as <-.
  specialize (D2 (NoDup_nil _)). tauto.
Qed.

Lemma same_message_trans a b c : same_message a c -> same_message b c -> same_message a b.
Proof.
  destruct a, b, c; cbn [same_message]; try tauto; try congruence.
  intros (A & C & H) (B' & _ & K). split; [exact A|]. split; [exact B'|]. intros k b. now rewrite H, K.
Qed.

Lemma message_means pf name s : result_means (message_read pf name s) (message_crash pf name s) (unmarshal_message pf name s).
Proof.
  destruct (unmarshal_message pf name s) as [m|e|] eqn:H; cbn [result_means].
  - apply message_iff. exists m. split; [exact H|]. exact (decoded_same pf name s m H).
  - split.
    + intros m R. apply message_iff in R. destruct R as (m' & R & _). congruence.
    + intros C. apply message_crash_iff in C. congruence.
  - now apply message_crash_iff.
Qed.
Lemma raw_means sp l : result_means (packet_read l) (cut_selector sp l) (decode_packet_raw sp l).
Proof.
  destruct (decode_packet_raw sp l) as [p|e|] eqn:H; cbn [result_means].
  - now apply (packet_iff sp).
  - split; [intros p R; apply (packet_iff sp) in R; congruence|]. intros C. apply decode_panic in C. congruence.
  - now apply decode_panic.
Qed.

Lemma packet_read_unique l p q : packet_read l p -> packet_read l q -> p = q.
Proof. intros H K. apply (packet_iff 0) in H, K. congruence. Qed.
Lemma cut_not_read sp l p : cut_selector sp l -> packet_read l p -> False.
Proof. intros C R. apply decode_panic in C. apply (packet_iff sp) in R. congruence. Qed.

Lemma kind_means pf sp l (mk : amsg -> packet) (k : packet -> res amsg) :
  (forall m m', mk m = mk m' -> m = m') ->
  (forall q t d, raw q t d -> q = mk (ARaw t d) /\ k q = unmarshal_message pf t d \/ (forall m, q <> mk m) /\ exists e, k q = Err e) ->
  result_means (fun m => exists name d, packet_read l (mk (ARaw name d)) /\ message_read pf name d m)
    (cut_selector sp l \/ exists name d, packet_read l (mk (ARaw name d)) /\ message_crash pf name d) (do p <- decode_packet_raw sp l; k p).
Proof.
  intros I K. pose proof (raw_means sp l) as R. destruct (decode_packet_raw sp l) as [q|e|]; cbn [bind].
  - cbn [result_means] in R. destruct (raw_message l q R) as (name & d & M). destruct (K q name d M) as [[-> ->]|[N [e ->]]].
    + pose proof (message_means pf name d) as U. destruct (unmarshal_message pf name d) as [m|e|]; cbn [result_means] in *.
      * eauto.
      * destruct U as [U1 U2]. split.
        -- intros m (n' & d' & P & H). apply (packet_read_unique _ _ _ R) in P. apply I in P. injection P as <- <-. now apply (U1 m).
        -- intros [C|(n' & d' & P & H)]; [exact (cut_not_read _ _ _ C R)|]. apply (packet_read_unique _ _ _ R) in P. apply I in P. injection P as <- <-. now apply U2.
      * eauto.
    + cbn [result_means]. split.
      * intros m (n' & d' & P & H). apply (packet_read_unique _ _ _ R) in P. now apply N in P.
      * intros [C|(n' & d' & P & H)]; [exact (cut_not_read _ _ _ C R)|]. apply (packet_read_unique _ _ _ R) in P. now apply N in P.
  - cbn [result_means] in *. destruct R as [R1 R2]. split; [intros m (n' & d' & P & H); now apply R1 in P|]. intros [C|(n' & d' & P & H)]; [auto|now apply R1 in P].
  - cbn [result_means] in *. now left.
Qed.

Lemma call_about pf c l : call_means pf c l (about pf c l).
Proof.
  destruct c as [sp|sp|sp|sp]; cbn [call_means about].
  - unfold decode_packet. pose proof (raw_means sp l) as R. destruct (decode_packet_raw sp l) as [q|e|]; cbn [bind].
    + cbn [result_means] in R. destruct (raw_message l q R) as (name & d & M). unfold decode_message. rewrite M.
      pose proof (message_means pf name d) as U. destruct (unmarshal_message pf name d) as [m|e|]; cbn [bind result_means] in *.
      * exists q, name, d. split; [exact R|]. split; [exact M|]. assert (E : message (set_message m q) = m) by now destruct q. rewrite E. split; [exact U|]. reflexivity.
      * destruct U as [U1 U2]. split.
        -- intros p (q' & n' & d' & P & M' & H & _). apply (packet_read_unique _ _ _ R) in P. subst q'. unfold raw in *. rewrite M in M'. injection M' as <- <-. now apply U1 in H.
        -- intros [C|(q' & n' & d' & P & M' & H)]; [exact (cut_not_read _ _ _ C R)|]. apply (packet_read_unique _ _ _ R) in P. subst q'. unfold raw in *. rewrite M in M'. injection M' as <- <-. now apply U2.
      * right. exists q, name, d. auto.
    + cbn [result_means] in *. destruct R as [R1 R2]. split; [intros m (q' & n' & d' & P & H); now apply R1 in P|]. intros [C|(q' & n' & d' & P & H)]; [auto|now apply R1 in P].
    + cbn [result_means] in *. now left.
  - apply raw_means.
  - apply kind_means; [congruence|]. intros q t d M. unfold raw in M. destruct q; cbn [message] in M; subst; cbn [info_message];
      [left; auto|right; split; [discriminate|eauto]..].
  - apply kind_means; [congruence|]. intros q t d M. unfold raw in M. destruct q; cbn [message] in M; subst; cbn [client_message];
      try (left; split; reflexivity); right; (split; [discriminate|eauto]).
Qed.

Lemma result_unique {A} (good : A -> Prop) (crash : Prop) (x y : res A) : (crash -> forall a, ~ good a) -> result_means good crash x -> result_means good crash y ->
  match x, y with Ok a, Ok b => good a /\ good b | Err _, Err _ | Panic, Panic => True | _, _ => False end.
Proof. intros N. destruct x, y; cbn [result_means]; try tauto; intros H K; try (now apply (proj1 H) in K); try (now apply (proj1 K) in H); try (eapply N; eassumption). Qed.

Lemma message_read_unique pf name s m m' : message_read pf name s m -> message_read pf name s m' -> same_message m m'.
Proof. intros H K. apply message_iff in H, K. destruct H as (a & H & H'), K as (b & K & K'). rewrite H in K. injection K as <-. eapply same_message_trans; eassumption. Qed.
Lemma crash_not_read pf name s m : message_crash pf name s -> ~ message_read pf name s m.
Proof. intros C R. apply message_crash_iff in C. apply message_iff in R. destruct R as (m' & R & _). congruence. Qed.

Lemma call_unique pf c l a b : call_means pf c l a -> call_means pf c l b -> same_answer a b.
Proof.
  assert (KU : forall sp (mk : amsg -> packet) x y, (forall m m', mk m = mk m' -> m = m') ->
    result_means (fun m => exists name d, packet_read l (mk (ARaw name d)) /\ message_read pf name d m)
      (cut_selector sp l \/ exists name d, packet_read l (mk (ARaw name d)) /\ message_crash pf name d) x ->
    result_means (fun m => exists name d, packet_read l (mk (ARaw name d)) /\ message_read pf name d m)
      (cut_selector sp l \/ exists name d, packet_read l (mk (ARaw name d)) /\ message_crash pf name d) y -> same_answer (AMessage x) (AMessage y)).
  { intros sp mk x y Inj H K. eapply result_unique in K; [| |exact H].
    - destruct x, y; cbn [same_answer]; try tauto. destruct K as [(n & d & P & M) (n' & d' & P' & M')].
      apply (packet_read_unique _ _ _ P) in P'. apply Inj in P'. injection P' as <- <-. eapply message_read_unique; eassumption.
    - intros [C|(n & d & P & C)] m (n' & d' & P' & M); [exact (cut_not_read _ _ _ C P')|].
      apply (packet_read_unique _ _ _ P) in P'. apply Inj in P'. injection P' as <- <-. now apply crash_not_read in M. }
  destruct c as [sp|sp|sp|sp], a as [x|x], b as [y|y]; cbn [call_means]; try tauto; intros H K.
  - eapply result_unique in K; [| |exact H].
    + destruct x as [p| |], y as [p'| |]; cbn [same_answer]; try tauto. destruct K as [(q & n & d & P & R & M & E) (q' & n' & d' & P' & R' & M' & E')].
      apply (packet_read_unique _ _ _ P) in P'. subst q'. unfold raw in *. rewrite R in R'. injection R' as <- <-. split; [eapply message_read_unique; eassumption|].
      rewrite <- E'. rewrite <- E at 2. now destruct q.
    + intros [C|(q & n & d & P & R & C)] m (q' & n' & d' & P' & R' & M & _); [exact (cut_not_read _ _ _ C P')|].
      apply (packet_read_unique _ _ _ P) in P'. subst q'. unfold raw in *. rewrite R in R'. injection R' as <- <-. now apply crash_not_read in M.
  - eapply result_unique in K; [| |exact H].
    + destruct x as [p| |], y as [p'| |]; cbn [same_answer]; try tauto. destruct K as [P P']. rewrite <- (packet_read_unique _ _ _ P P').
      destruct (raw_message l p P) as (n & d & M). unfold same_packet. unfold raw in M. rewrite M. split; [reflexivity|]. destruct p; cbn in *; congruence.
    + intros C m P. exact (cut_not_read _ _ _ C P).
  - eapply KU; [|exact H|exact K]. congruence.
  - eapply KU; [|exact H|exact K]. congruence.
Qed.

Lemma session_unique {W} pf (keep : option (W -> W * option error)) w cs ls os w2 os' w2' :
  adc_session pf keep w cs ls os w2 -> adc_session pf keep w cs ls os' w2' -> Forall2 same_answer os os' /\ w2 = w2'.
Proof.
  assert (F : forall c e, same_answer (failed c e) (failed c e)) by (intros [] e; exact I).
  intros H. revert os' w2'. induction H as [w ls|w c cs os w2 H IH|w w1 c cs ls os w2 K H IH|w w1 e c cs ls os w2 K H IH|w c cs l ls a os w2 N M H IH]; intros os' w2' H'.
  - inversion H'; subst. split; constructor.
  - inversion H'; subst. match goal with X : adc_session _ _ _ cs [] _ _ |- _ => destruct (IH _ _ X) as [I1 I2] end. split; [constructor; auto|exact I2].
  - inversion H'; subst.
    + match goal with X : on_keep _ _ = (?a, None), Y : adc_session _ _ ?a _ _ _ _ |- _ => rewrite K in X; injection X as <-; exact (IH _ _ Y) end.
    + match goal with X : on_keep _ _ = (_, Some _) |- _ => rewrite K in X; discriminate X end.
    + match goal with X : _ <> _ |- _ => now elim X end.
  - inversion H'; subst.
    + match goal with X : on_keep _ _ = (_, None) |- _ => rewrite K in X; discriminate X end.
    + match goal with X : on_keep _ _ = (?a, Some _), Y : adc_session _ _ ?a _ _ _ _ |- _ => rewrite K in X; injection X as <- <-; destruct (IH _ _ Y) as [I1 I2] end.
      split; [constructor; auto|exact I2].
    + match goal with X : _ <> _ |- _ => now elim X end.
  - inversion H'; subst; try (now elim N).
    match goal with X : adc_session _ _ _ cs ls _ _ |- _ => destruct (IH _ _ X) as [I1 I2] end. split; [constructor; [eapply call_unique; eassumption|exact I1]|exact I2].
Qed.

Section Stream.
Context {W zstate : Type} (act : zstate -> zaction zstate) (pf : bytes -> float_result) (keep : option (W -> W * option error)).

Lemma keep_line l : is_line x0a l -> (keep_alive_line l = true <-> l = [x0a]).
Proof.
  intros (q & -> & N). destruct q as [|a q]; [now cbn|]. split; [destruct q; discriminate|]. intros H. apply (f_equal (@length _)) in H. rewrite app_length in H. cbn in H. lia.
Qed.

Lemma skim_session c cs : forall ls w, Forall (is_line x0a) ls ->
  let '(x, w1, ls1) := skim keep ls w in forall os w2, adc_session pf keep w1 cs ls1 os w2 ->
    adc_session pf keep w (c :: cs) ls (respond pf c x :: os) w2.
Proof.
  induction ls as [|l ls IH]; intros w L; cbn [skim].
  - intros os w2 S. assert (respond pf c (Err EEOF) = failed c EEOF) as -> by now destruct c. now constructor.
  - inversion L as [|? ? L1 L2]; subst. destruct (keep_alive_line l) eqn:E.
    + apply (keep_line l L1) in E. subst l. destruct keep as [k|] eqn:Kk.
      * destruct (k w) as [w1 [e|]] eqn:Kw.
        -- intros os w2 S. assert (respond pf c (Err e) = failed c e) as -> by now destruct c. apply (as_keep_error _ _ w w1); [exact Kw|exact S].
        -- specialize (IH w1 L2). destruct (skim (Some k) ls w1) as [[x w3] ls1]. intros os w2 S. apply (as_keep _ _ w w1); [exact Kw|]. now apply IH.
      * specialize (IH w L2). destruct (skim None ls w) as [[x w3] ls1]. intros os w2 S. apply (as_keep _ _ w w); [reflexivity|]. now apply IH.
    + intros os w2 S. apply as_line; [|exact (call_about pf c l)|exact S]. intros ->. discriminate E.
Qed.

Theorem calls_session : forall cs ls w (r : reader W zstate), supplies act r ls -> Forall (is_line x0a) ls ->
  exists os w2 R2, eventually (fun f => run_rcalls act pf f cs w (mkAreader r keep) = Some (os, w2, R2)) /\ adc_session pf keep w cs ls os w2.
Proof.
  induction cs as [|c cs IH]; intros ls w r H L.
  - exists [], w, (mkAreader r keep). split; [exists 0; reflexivity|constructor].
  - destruct (supplies_next act pf keep ls w r H L) as (r' & f0 & K1 & K2 & K3). pose proof (skim_session c cs ls w L) as S.
    destruct (skim keep ls w) as [[x w1] ls1]. cbn [fst snd] in *. destruct (IH ls1 w1 r' K1 K2) as (os & w2 & R2 & J1 & J2).
    exists (respond pf c x :: os), w2, R2. split; [|now apply S].
    eapply calls_cons; [|exact J1]. exists f0. intros f Lf. exact (respond_call act pf f c w (mkAreader r keep) _ _ _ (K3 f f Lf Lf)).
Qed.
End Stream.
