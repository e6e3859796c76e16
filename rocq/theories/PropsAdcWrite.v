(** Property C110: what the ADC encoder writes.  Specification: SpecAdcWrite.v.  Proofs: AdcWriteFacts.v, AdcSurviveFacts.v. *)
From Verif Require Import Base BaseFacts SpecText SpecHash AdcText AdcValue AdcMessage AdcPacket SpecAdc SpecAdcMessage SpecAdcRelay SpecAdcWrite AdcWriteFacts AdcSurviveFacts.

(** ** C110: encoding *)

(** The payload of every message. *)
Theorem C110_message m d : message_text m d <-> marshal m = d.
Proof. exact (message_text_iff m d). Qed.
Print Assumptions C110_message.

(** The line of every packet. *)
Theorem C110_packet p l : packet_text p l <-> marshal_packet p = l.
Proof. exact (packet_text_iff p l). Qed.
Print Assumptions C110_packet.

(** When it is one line: exactly if no text written without escapes holds a line feed. *)
Theorem C110_line p : a_line (marshal_packet p) <-> quiet_message (message p) /\ quiet_parts p.
Proof. exact (packet_one_line p). Qed.
Print Assumptions C110_line.

(** A status with a negative code, a chat message with an escape, and a search with two terms. *)
Example C110_status : message_text (ASta {| st_sev := 2; st_code := -5; st_msg := B "no way" |}) (B "2-5 no\sway").
Proof. apply C110_message. vm_compute. reflexivity. Qed.
Example C110_get : message_text (AGet {| g_type := B "file"; g_path := B "a b"; g_start := 0; g_bytes := -1; g_comp := true |}) (B "file a\sb 0 -1 ZL1").
Proof. exact (mt_get (B "file") (B "a b") 0 (-1) true (B "file") (B "a\sb") ltac:(apply escaped_iff; vm_compute; reflexivity) ltac:(apply escaped_iff; vm_compute; reflexivity)). Qed.
Example C110_direct : packet_text (PDirect (B "AAAB") (B "AAAC") (AStruct TChat (B "a b", (Some (B "AAAB"), (true, (0%Z, tt)))))) (B "DMSG AAAB AAAC a\sb PMAAAB ME1" ++ [x0a]).
Proof. apply C110_packet. vm_compute. reflexivity. Qed.
(** Without a payload there is no space at the end. *)
Example C110_empty : packet_text (PFeature (B "AAAB") [(B "TCP4", true); (B "NAT0", false)] (ARaw (B "SCH") [])) (B "FSCH AAAB +TCP4 -NAT0" ++ [x0a]).
Proof.
  exists [B "AAAB"; B "+TCP4"; B "-NAT0"], []. split; [reflexivity|]. split; [apply mt_raw|reflexivity].
Qed.
(** A line feed is escaped in a chat message, but not in the name of a feature. *)
Example C110_broken : a_line (marshal_packet (PHub (AStruct TChat ([x0a], (None, (false, (0%Z, tt))))))) /\
  ~ a_line (marshal_packet (PHub (ASup [(B "abc" ++ [x0a], true)]))).
Proof.
  split; [apply C110_line; cbn; tauto|]. intros H. apply C110_line in H. destruct H as [H _]. cbn in H. inversion H as [|? ? N _]. apply N. cbn. tauto.
Qed.
