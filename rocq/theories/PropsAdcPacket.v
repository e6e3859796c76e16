(** Property theorems C62-C64 and C75: ADC packets.
    Specifications: SpecAdc.v, SpecAdcMessage.v.  Proofs: AdcPacketFacts.v.

    [sp] is the capacity of the slice behind the packet; [pf] is an arbitrary behaviour of
    strconv.ParseFloat. *)
From Verif Require Import Base BaseFacts Num Base32 Tiger AdcText AdcValue AdcMessage AdcPacket SpecAdc SpecAdcMessage.
From Verif Require Import AdcTextFacts AdcValueFacts AdcMessageFacts AdcPacketFacts.

(** ** C62: packets round trip *)

Theorem C62_roundtrip sp p t d : raw p t d -> length t = 3 -> ~ In x00 t -> ~ In x00 d -> parts_ok p -> payload_ok p ->
  decode_packet_raw sp (marshal_packet p) = Ok p.
Proof. exact (packet_roundtrip sp p t d). Qed.
Print Assumptions C62_roundtrip.

(** The condition on the payload of feature packets is needed: no other payload is ever decoded. *)
Theorem C62_payload_exact sp id sel t d : length t = 3 -> ~ In x00 t -> ~ In x00 d -> parts_ok (PFeature id sel (ARaw t d)) ->
  (decode_packet_raw sp (marshal_packet (PFeature id sel (ARaw t d))) = Ok (PFeature id sel (ARaw t d)) <->
   payload_ok (PFeature id sel (ARaw t d))).
Proof.
  intros T N D P. split.
  - intros H. destruct d as [|c d]; [exact I|]. exact (feature_payload _ _ _ _ _ _ _ H).
  - intros Y. now apply (packet_roundtrip sp _ t d).
Qed.
Print Assumptions C62_payload_exact.

Theorem C62_payload_refuted : exists p, parts_ok p /\ raw p (B "SCH") (B "-abc x") /\
  decode_packet_raw 8 (marshal_packet p) = Ok (PFeature (B "AAAB") [(B "TCP4", true); (B "abc ", false)] (ARaw (B "SCH") (B "x"))).
Proof.
  exists (PFeature (B "AAAB") [(B "TCP4", true)] (ARaw (B "SCH") (B "-abc x"))). split; [|split; vm_compute; reflexivity].
  cbn -[B]. split; [split; [reflexivity|cbn; intuition discriminate]|]. repeat constructor; cbn; intuition discriminate.
Qed.
Print Assumptions C62_payload_refuted.

(** With a structured message, decoded by its registered type; HubInfo shares the type of UserInfo and
    is decoded by DecodeMessageTo. *)
Lemma marshal_as_raw p : marshal_packet p = marshal_packet (set_message (ARaw (cmd (message p)) (marshal (message p))) p).
Proof. unfold marshal_packet. destruct p; reflexivity. Qed.

Theorem C62_typed pf sp p t v : message p = AStruct t v -> t <> THub -> carries_all (fields_of t) v ->
  ~ In x00 (marshal (AStruct t v)) -> parts_ok p -> payload_ok (set_message (ARaw (cmd (message p)) (marshal (message p))) p) ->
  decode_packet pf sp (marshal_packet p) = Ok p.
Proof.
  intros M T C N P Y. unfold decode_packet. rewrite marshal_as_raw.
  rewrite (packet_roundtrip sp _ (cmd (message p)) (marshal (message p))).
  - cbn [bind]. unfold decode_message. assert (R : message (set_message (ARaw (cmd (message p)) (marshal (message p))) p) = ARaw (cmd (message p)) (marshal (message p))) by (now destruct p).
    rewrite R, M. unfold unmarshal_message. assert (G : registered (cmd (AStruct t v)) = Some (new_struct t)) by (destruct t; try reflexivity; now elim T).
    rewrite G. rewrite (message_roundtrip pf t v C). cbn [bind]. f_equal. destruct p; cbn in M |- *; now subst.
  - now destruct p.
  - rewrite M. now destruct t.
  - rewrite M. destruct t; cbn; intuition discriminate.
  - now rewrite M.
  - now destruct p.
  - exact Y.
Qed.
Print Assumptions C62_typed.

Theorem C62_typed_to pf sp p t v : message p = AStruct t v -> carries_all (fields_of t) v ->
  ~ In x00 (marshal (AStruct t v)) -> parts_ok p -> payload_ok (set_message (ARaw (cmd (message p)) (marshal (message p))) p) ->
  exists q, decode_packet_raw sp (marshal_packet p) = Ok q /\ decode_message_to pf q (new_struct t) = Ok (AStruct t v).
Proof.
  intros M C N P Y. rewrite marshal_as_raw. eexists. split.
  - apply (packet_roundtrip sp _ (cmd (message p)) (marshal (message p))); [now destruct p|rewrite M; now destruct t|rewrite M; destruct t; cbn; intuition discriminate|now rewrite M|now destruct p|exact Y].
  - unfold decode_message_to. assert (R : message (set_message (ARaw (cmd (message p)) (marshal (message p))) p) = ARaw (cmd (message p)) (marshal (message p))) by (now destruct p).
    rewrite R, M. assert (G : bytes_eqb (cmd (new_struct t)) (cmd (AStruct t v)) = true) by (now destruct t). rewrite G. exact (message_roundtrip pf t v C).
Qed.
Print Assumptions C62_typed_to.

(** Another type of message is refused. *)
Theorem C62_decode_to_type pf p m m' : decode_message_to pf p m = Ok m' -> exists d, raw p (cmd m) d.
Proof.
  unfold decode_message_to, raw. destruct (message p); try discriminate. destruct (bytes_eqb _ _) eqn:E; [|discriminate].
  apply bytes_eqb_true in E. rewrite E. eauto.
Qed.
Print Assumptions C62_decode_to_type.

Definition C62_packet : packet := PDirect (B "AAAB") (B "BAAA") (ARaw (B "CTM") (B "ADC/1.0 3000 1")).
Example C62_instance : parts_ok C62_packet /\ payload_ok C62_packet /\ raw C62_packet (B "CTM") (B "ADC/1.0 3000 1") /\
  marshal_packet C62_packet = B "DCTM AAAB BAAA ADC/1.0 3000 1" ++ [x0a].
Proof. split; [cbn; unfold sid_ok; cbn; intuition discriminate|]. repeat split. Qed.
Example C62_instance_typed : let p := PFeature (B "AAAB") [(B "TCP4", true); (B "NAT0", false)] (AStruct TChat (B "a b", (None, (true, (7%Z, tt))))) in
  parts_ok p /\ marshal_packet p = B "FMSG AAAB +TCP4 -NAT0 a\sb ME1 TS7" ++ [x0a].
Proof. split; [cbn -[B]; unfold sid_ok; repeat constructor; cbn; intuition discriminate|vm_compute; reflexivity]. Qed.

(** ** C63: crashes *)

Theorem C63_crash_refuted : decode_packet_raw 0 (B "FSCH AAAB +" ++ [x0a]) = Panic.
Proof. vm_compute. reflexivity. Qed.
Print Assumptions C63_crash_refuted.

(** Exactly when: a feature packet that ends in an incomplete selector, and hardly any capacity behind. *)
Theorem C63_crash_exact sp p : decode_packet_raw sp p = Panic <->
  exists name data id sep x c t, framed "F" name data p /\ ~ In x00 p /\ data = id ++ sep :: x ++ [x0a] /\ length id = 4 /\
    (sep = " "%byte \/ sep = x0a) /\ selectors x (c :: t) /\ (c = "+"%byte \/ c = "-"%byte) /\ length (c :: t) + 1 + sp < 5.
Proof. exact (decode_panic sp p). Qed.
Print Assumptions C63_crash_exact.

(** Three spare bytes are enough. *)
Theorem C63_spare_partial sp p : 3 <= sp -> decode_packet_raw sp p <> Panic.
Proof.
  intros L H. apply decode_panic in H. destruct H as (name & data & id & sep & x & c & t & _ & _ & _ & _ & _ & _ & _ & H). cbn [length] in H. lia.
Qed.
Print Assumptions C63_spare_partial.

(** No other packet crashes. *)
Theorem C63_other_partial sp k p : k <> "F"%byte -> decode_packet_raw sp (k :: p) <> Panic.
Proof.
  intros K H. apply decode_panic in H. destruct H as (name & data & id & sep & x & c & t & (_ & [F|(d & _ & F)]) & _); now injection F.
Qed.
Print Assumptions C63_other_partial.

(** InfoPacket.UnmarshalPacketADC, when called directly, crashes on empty data and only then. *)
Theorem C63_info name data : info_unmarshal name data = Panic <-> data = [].
Proof. destruct data; cbn [info_unmarshal]; [tauto|]. destruct (ends_line _); split; discriminate. Qed.
Print Assumptions C63_info.

Example C63_instance : decode_packet_raw 3 (B "FSCH AAAB +" ++ [x0a]) = Err (EText "short feature") /\
  decode_packet_raw 2 (B "FSCH AAAB +" ++ [x0a]) = Panic.
Proof. split; vm_compute; reflexivity. Qed.

(** ** C64: session identifiers *)

Theorem C64_newline_refuted sp : exists p id, decode_packet_raw sp (B "BINF AAA" ++ [x0a]) = Ok p /\ sids p = [id] /\ In x0a id.
Proof. exists (PBroadcast (B "AAA" ++ [x0a]) (ARaw (B "INF") [])), (B "AAA" ++ [x0a]). split; [vm_compute; reflexivity|]. split; [reflexivity|cbn; tauto]. Qed.
Print Assumptions C64_newline_refuted.

(** The identifiers of a line are the characters 6 to 9 and 11 to 14, *)
Theorem C64_sids_partial sp q p : ~ In x0a q -> decode_packet_raw sp (q ++ [x0a]) = Ok p ->
  match sids p with
  | [] => True
  | [id] => id = firstn 4 (skipn 5 (q ++ [x0a])) /\ 4 <= length (skipn 5 (q ++ [x0a]))
  | id :: to :: _ => id = firstn 4 (skipn 5 (q ++ [x0a])) /\ to = firstn 4 (skipn 10 (q ++ [x0a])) /\ 4 <= length (skipn 10 (q ++ [x0a]))
  end.
Proof. exact (decoded_sids sp q p). Qed.
Print Assumptions C64_sids_partial.

(** and one contains the line delimiter exactly when the line ends inside of the last identifier. *)
Theorem C64_newline_exact sp q p : ~ In x0a q -> decode_packet_raw sp (q ++ [x0a]) = Ok p ->
  ((exists id, In id (sids p) /\ In x0a id) <->
   match sids p with [] => False | [_] => length q = 8 | _ => length q = 13 end).
Proof.
  intros N H. assert (G := decoded_sids sp q p N H). destruct p; cbn [sids] in *.
  1,2,6,8: split; [intros (i & [] & _)|intros []].
  1,4: (destruct G as [E L]; rewrite skipn_length in L; assert (Q : 5 + 4 <= length (q ++ [x0a])) by lia; apply (part_newline q 5 N) in Q; rewrite <- E, app_length in Q; cbn [length] in Q;
    split; [intros (i & [->|[]] & X); apply Q in X; lia|intros X; exists id; split; [now left|apply Q; lia]]).
  1,2: (destruct G as (E & E' & L); rewrite skipn_length in L; assert (Q : 10 + 4 <= length (q ++ [x0a])) by lia; apply (part_newline q 10 N) in Q;
    rewrite <- E', app_length in Q; cbn [length] in Q; assert (Q5 : 5 + 4 <= length (q ++ [x0a])) by lia; apply (part_newline q 5 N) in Q5; rewrite <- E, app_length in Q5; cbn [length] in Q5;
    split; [intros (i & [->|[->|[]]] & X); [apply Q5 in X; rewrite app_length in L; cbn [length] in L; lia|apply Q in X; lia]|intros X; exists to; split; [right; now left|apply Q; lia]]).
Qed.
Print Assumptions C64_newline_exact.

(** They always have four characters. *)
Theorem C64_length sp q p : ~ In x0a q -> decode_packet_raw sp (q ++ [x0a]) = Ok p -> Forall (fun id => length id = 4) (sids p).
Proof.
  intros N H. assert (G := decoded_sids sp q p N H). destruct p; cbn [sids] in *; repeat constructor.
  all: try (destruct G as [-> L]; rewrite firstn_length; lia).
  all: destruct G as (E & E' & L); rewrite skipn_length in L.
  all: first [rewrite E, firstn_length, skipn_length; lia|rewrite E', firstn_length, skipn_length; lia].
Qed.
Print Assumptions C64_length.

Example C64_instance : decode_packet_raw 0 (B "BINF AAAB NIbob" ++ [x0a]) = Ok (PBroadcast (B "AAAB") (ARaw (B "INF") (B "NIbob"))) /\
  decode_packet_raw 0 (B "DCTM AAAB BBB" ++ [x0a]) = Ok (PDirect (B "AAAB") (B "BBB" ++ [x0a]) (ARaw (B "CTM") [])).
Proof. split; vm_compute; reflexivity. Qed.

(** ** C75: one line *)

Theorem C75_one_line p : quiet_message (message p) -> quiet_parts p -> exists q, marshal_packet p = q ++ [x0a] /\ ~ In x0a q.
Proof. exact (packet_line p). Qed.
Print Assumptions C75_one_line.

Example C75_instance : let p := PBroadcast (B "AAAB") (AStruct TChat (B "a" ++ [x0a] ++ B "b", (None, (false, (0%Z, tt))))) in
  quiet_message (message p) /\ quiet_parts p /\ marshal_packet p = B "BMSG AAAB a\nb" ++ [x0a].
Proof. split; [cbn; intuition discriminate|]. split; [cbn; intuition discriminate|vm_compute; reflexivity]. Qed.
