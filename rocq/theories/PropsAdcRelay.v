(** Property C106: relaying ADC packets.  Specification: SpecAdcRelay.v.  Proofs: AdcRelayFacts.v. *)
From Verif Require Import Base BaseFacts Num Tiger AdcText AdcValue AdcMessage AdcPacket SpecText SpecHash SpecAdc SpecAdcMessage SpecAdcRead SpecAdcRelay.
From Verif Require Import AdcReadPackets AdcRelayFacts.

(** ** C106: what has been decoded is encoded and decoded again *)

(** Packets whose message stays undecoded always come out the same, *)
Theorem C106_raw sp sp' l p : decode_packet_raw sp l = Ok p -> decode_packet_raw sp' (marshal_packet p) = Ok p.
Proof.
  intros H. apply packet_iff in H. destruct (raw_message l p H) as (name & d & M).
  pose proof (read_parts l p name d H M) as (_ & _ & _ & _ & N).
  pose proof (relay_raw sp' l p name d d H M N (fun s => s)) as R.
  assert (E : set_message (ARaw name d) p = p) by (unfold raw in M; destruct p; cbn in M |- *; now rewrite M). now rewrite E in R.
Qed.
Print Assumptions C106_raw.

(** and are one line again exactly if no identifier has swallowed the line feed. *)
Theorem C106_raw_line sp q p : ~ In x0a q -> decode_packet_raw sp (q ++ [x0a]) = Ok p ->
  (a_line (marshal_packet p) <-> Forall (fun id => ~ In x0a id) (sids p)).
Proof. exact (relay_raw_line sp q p). Qed.
Print Assumptions C106_raw_line.

(** A short line becomes two lines. *)
Theorem C106_line_refuted : exists p, decode_packet_raw 8 (B "BINF AAA" ++ [x0a]) = Ok p /\
  marshal_packet p = B "BINF AAA" ++ [x0a] ++ [x0a].
Proof. eexists. split; vm_compute; reflexivity. Qed.
Print Assumptions C106_line_refuted.

(** With its message decoded, a packet comes out the same exactly if the message survives: *)
Theorem C106_same_partial pf sp sp' l p : converts pf -> decode_packet pf sp l = Ok p ->
  ((exists p', decode_packet pf sp' (marshal_packet p) = Ok p' /\ same_packet p p') <-> survives (message p)).
Proof. intros C. exact (relay_packet pf C sp sp' l p). Qed.
Print Assumptions C106_same_partial.

(** in particular for every message but status and feature lists. *)
Theorem C106_others pf sp sp' l p : converts pf -> decode_packet pf sp l = Ok p ->
  (forall st, message p <> ASta st) -> (forall f, message p <> ASup f) -> decode_packet pf sp' (marshal_packet p) = Ok p.
Proof.
  intros C H NS NF. destruct (relay_packet pf C sp sp' l p H) as [_ K].
  destruct K as (p' & E & S & T). { destruct (message p) as [|f|st| | | | | | | |] eqn:M; try exact I; [now elim (NF f)|now elim (NS st)]. }
  rewrite E. f_equal. rewrite <- T. assert (Q : message p = message p').
  { destruct (message p) as [|f| | | | | | | | |] eqn:M; cbn [same_message] in S; try (now elim (NF f)); now destruct (message p'). }
  rewrite Q. now destruct p'.
Qed.
Print Assumptions C106_others.

(** What is written is one line exactly if neither identifiers nor names of features contain line feeds. *)
Theorem C106_line_partial pf sp q p : converts pf -> ~ In x0a q -> decode_packet pf sp (q ++ [x0a]) = Ok p ->
  (a_line (marshal_packet p) <-> unbroken_line p).
Proof. intros C. exact (relay_line pf C sp q p). Qed.
Print Assumptions C106_line_partial.

(** A negative status is written as something that is no number. *)
Theorem C106_status_refuted pf : exists p, decode_packet pf 8 (B "ISTA -5 x" ++ [x0a]) = Ok p /\
  marshal_packet p = B "ISTA 0-5 x" ++ [x0a] /\ forall sp p', decode_packet pf sp (marshal_packet p) <> Ok p'.
Proof. eexists. split; [vm_compute; reflexivity|]. split; [vm_compute; reflexivity|]. intros sp p'. vm_compute. discriminate. Qed.
Print Assumptions C106_status_refuted.

(** The escape in the name of a feature is lost, and the line is broken. *)
Theorem C106_features_refuted pf : exists p, decode_packet pf 8 (B "HSUP ADBASE AD\nabc" ++ [x0a]) = Ok p /\
  marshal_packet p = B "HSUP ADBASE AD" ++ [x0a] ++ B "abc" ++ [x0a].
Proof. eexists. split; vm_compute; reflexivity. Qed.
Print Assumptions C106_features_refuted.

(** A case in which the text changes and the meaning does not *)
Example C106_case : let l := B "FQUI AAAB +TCP4-NAT0  AAAC TL007 MSa\sb\x" ++ [x0a] in
  exists p, decode_packet (fun _ => FErr) 8 l = Ok p /\ survives (message p) /\ unbroken_line p /\ converts (fun _ => FErr) /\
  marshal_packet p = B "FQUI AAAB +TCP4 -NAT0 AAAC MSa\sb\\x TL7" ++ [x0a].
Proof.
  eexists. split; [vm_compute; reflexivity|]. split; [exact I|]. split; [split; [constructor; [cbn; intuition discriminate|constructor]|exact I]|].
  split; [discriminate|vm_compute; reflexivity].
Qed.
Example C106_case_raw : exists p, decode_packet_raw 8 (B "DMSG AAAB AAAC" ++ [x0a]) = Ok p /\ marshal_packet p = B "DMSG AAAB AAAC" ++ [x0a] /\
  sids p = [B "AAAB"; B "AAAC"].
Proof. eexists. repeat split; vm_compute; reflexivity. Qed.
