(** Properties C100 to C102: which ADC payloads and lines are accepted, and what they mean. *)
From Verif Require Import Base BaseFacts Num Tiger AdcText AdcValue AdcMessage AdcPacket AdcReader SpecText SpecHash SpecAdc SpecAdcMessage SpecAdcRead.
From Verif Require Import AdcMessageFacts AdcReadFacts AdcReadPackets.

(** ** C100: structures *)

(** Every structure has the fields of the protocol. *)
Theorem C100_layout t : fields_of t = layout t.
Proof. exact (layout_ok t). Qed.
Print Assumptions C100_layout.

(** Unmarshal succeeds exactly on the payloads that the specification reads, with that result, for new and
    for reused structures. *)
Theorem C100_decoded pf t s ws old v : separated s ws -> array_sizes (fields_of t) old ->
  (unmarshal pf s (AStruct t old) = Ok (AStruct t v) <-> fields_read pf (fields_of t) ws old v).
Proof. exact (struct_read pf t s ws old v). Qed.
Print Assumptions C100_decoded.

(** It crashes exactly when a positional word is missing or a hash is too long, and the fields before can
    be read. *)
Theorem C100_crash pf t s ws old : separated s ws -> array_sizes (fields_of t) old ->
  (unmarshal pf s (AStruct t old) = Panic <-> fields_crash pf (fields_of t) ws old).
Proof. intros W A. apply struct_crash_iff; [exact W|now apply array_sized]. Qed.
Print Assumptions C100_crash.

Example C100_case : let s := B "AAAB MSbye\sall TL-1 XXignored IDAAAC IDAAAD" in
  separated s [B "AAAB"; B "MSbye\sall"; B "TL-1"; B "XXignored"; B "IDAAAC"; B "IDAAAD"] /\ array_sizes (fields_of TQui) (zeros (fields_of TQui)) /\
  fields_read (fun _ => FErr) (fields_of TQui) [B "AAAB"; B "MSbye\sall"; B "TL-1"; B "XXignored"; B "IDAAAC"; B "IDAAAD"] (zeros (fields_of TQui))
    (B "AAAB", (B "bye all", (B "AAAC", (-1, ([], tt)))))%Z.
Proof.
  assert (W : separated (B "AAAB MSbye\sall TL-1 XXignored IDAAAC IDAAAD") [B "AAAB"; B "MSbye\sall"; B "TL-1"; B "XXignored"; B "IDAAAC"; B "IDAAAD"]).
  { split; [discriminate|]. split; [repeat constructor; vm_compute; intuition discriminate|reflexivity]. }
  split; [exact W|]. split; [apply zeros_sizes|]. apply (C100_decoded _ TQui _ _ _ _ W (zeros_sizes _)). vm_compute. reflexivity.
Qed.
Example C100_crash_case : fields_crash (fun _ => FErr) (fields_of TCtm) [B "ADC/1.0"; B "1412"] (zeros (fields_of TCtm)) /\
  ~ fields_crash (fun _ => FErr) (fields_of TCtm) [B "ADC/1.0"; B "port"] (zeros (fields_of TCtm)).
Proof.
  assert (W : forall a b, ~ In " "%byte a -> ~ In " "%byte b -> separated (a ++ B " " ++ b) [a; b]).
  { intros a b A B'. split; [discriminate|]. split; [repeat constructor; assumption|reflexivity]. }
  split.
  - apply (C100_crash _ TCtm (B "ADC/1.0" ++ B " " ++ B "1412") _ _ (W (B "ADC/1.0") (B "1412") ltac:(vm_compute; intuition discriminate) ltac:(vm_compute; intuition discriminate)) (zeros_sizes _)). vm_compute. reflexivity.
  - rewrite <- (C100_crash _ TCtm (B "ADC/1.0" ++ B " " ++ B "port") _ _ (W (B "ADC/1.0") (B "port") ltac:(vm_compute; intuition discriminate) ltac:(vm_compute; intuition discriminate)) (zeros_sizes _)). vm_compute. discriminate.
Qed.

(** ** C101: messages *)

(** UnmarshalMessage, for every type and payload: accepted exactly as specified; unknown types are kept undecoded. *)
Theorem C101_decoded pf name s m :
  (exists m', unmarshal_message pf name s = Ok m' /\ same_message m m') <-> message_read pf name s m.
Proof. exact (message_iff pf name s m). Qed.
Print Assumptions C101_decoded.

(** and crashes exactly as specified; all other payloads are refused with an error. *)
Theorem C101_crash pf name s : unmarshal_message pf name s = Panic <-> message_crash pf name s.
Proof. exact (message_crash_iff pf name s). Qed.
Print Assumptions C101_crash.

Example C101_case : message_read (fun _ => FErr) (B "SUP") (B "ADBASE ADTIGR RMPING RMBASE") (ASup [(B "PING", false); (B "TIGR", true); (B "BASE", true)]) /\
  message_read (fun _ => FErr) (B "GET") (B "file a\sb 5 -1 ") (AGet {| g_type := B "file"; g_path := B "a b"; g_start := 5; g_bytes := -1; g_comp := false |}) /\
  message_read (fun _ => FErr) (B "GPA") (B "AEBA" ++ [x0d; x0d]) (AGpa [x01; x02; x00]) /\
  message_crash (fun _ => FErr) (B "PAS") (repeat "A"%byte 40).
Proof.
  split; [|split; [|split]].
  - apply C101_decoded. exists (ASup [(B "PING", false); (B "BASE", true); (B "TIGR", true)]). split; [vm_compute; reflexivity|]. cbn [same_message].
    split; [repeat constructor; cbn; intuition discriminate|]. split; [repeat constructor; cbn; intuition discriminate|]. intros k b. cbn [In]. tauto.
  - apply C101_decoded. eexists. split; vm_compute; reflexivity.
  - apply C101_decoded. eexists. split; vm_compute; reflexivity.
  - apply C101_crash. vm_compute. reflexivity.
Qed.

(** ** C102: packets *)

(** DecodePacketRaw accepts exactly the lines of the packet grammar. *)
Theorem C102_raw sp l p : decode_packet_raw sp l = Ok p <-> packet_read l p.
Proof. exact (packet_iff sp l p). Qed.
Print Assumptions C102_raw.

(** DecodePacket also decodes the message. *)
Theorem C102_decoded pf sp l p : (exists p', decode_packet pf sp l = Ok p' /\ same_packet p p') <-> packet_message_read pf l p.
Proof. exact (decode_packet_iff pf sp l p). Qed.
Print Assumptions C102_decoded.

Example C102_case : packet_read (B "FSCH AAAB +TCP4 -NAT0 TOx" ++ [x0a]) (PFeature (B "AAAB") [(B "TCP4", true); (B "NAT0", false)] (ARaw (B "SCH") (B "TOx"))) /\
  packet_read (B "BINF AAA" ++ [x0a]) (PBroadcast (B "AAA" ++ [x0a]) (ARaw (B "INF") [])) /\
  packet_message_read (fun _ => FErr) (B "DRCM AAAB AAAC ADC/1.0 t" ++ [x0a]) (PDirect (B "AAAB") (B "AAAC") (AStruct TRcm (B "ADC/1.0", (B "t", tt)))).
Proof.
  split; [|split].
  - apply (C102_raw 0). vm_compute. reflexivity.
  - apply (C102_raw 0). vm_compute. reflexivity.
  - apply (C102_decoded _ 0). eexists. split; [vm_compute; reflexivity|]. split; vm_compute; reflexivity.
Qed.
