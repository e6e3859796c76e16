(** Properties C111-C113: which ADC messages and packets arrive.  Specification: SpecAdcSurvive.v.  Proofs: AdcSurviveFacts.v. *)
From Verif Require Import Base BaseFacts LineReader SpecLine LineReaderStream LineWriter SpecWriter NmdcReaderFacts NmdcEndToEnd PropsLineWriter PropsNmdcReader.
From Verif Require Import SpecText SpecHash AdcText AdcValue AdcMessage AdcPacket SpecAdc SpecAdcMessage AdcMessageFacts AdcPacketFacts AdcReader AdcWriter SpecAdcReader AdcEndToEnd PropsAdcPacket PropsAdcReader.
From Verif Require Import SpecAdcRead SpecAdcRelay SpecAdcWrite SpecAdcSurvive AdcReadFacts AdcWriteFacts AdcSurviveFacts.

(** ** C111: messages *)

(** Encoded and decoded into a new message of the same type, a message is the same exactly if it fits. *)
Theorem C111_message pf m : converts pf ->
  ((exists m', unmarshal pf (marshal m) (new_like m) = Ok m' /\ same_message m m') <-> message_fits m).
Proof. intros PF. exact (message_arrives pf PF m). Qed.
Print Assumptions C111_message.

(** If only the code of the message is known to the decoder, its type must be told by the code. *)
Theorem C111_registered pf m : converts pf ->
  ((exists m', unmarshal_message pf (code_of m) (marshal m) = Ok m' /\ same_message m m') <-> message_fits m /\ told m).
Proof. intros PF. exact (registered_arrives pf PF m). Qed.
Print Assumptions C111_registered.

Example C111_status : message_fits (ASta {| st_sev := -2; st_code := 0; st_msg := B "a b" |}) /\
  ~ message_fits (ASta {| st_sev := 1; st_code := -1; st_msg := [] |}) /\ ~ message_fits (ASta {| st_sev := -1; st_code := 5; st_msg := [] |}) /\
  ~ message_fits (ASta {| st_sev := 0; st_code := 100; st_msg := [] |}).
Proof. cbn [message_fits st_sev st_code]. unfold int64. repeat split; lia. Qed.
Example C111_features : message_fits (ASup [(B "BASE", true); (B "TIGR", false)]) /\
  ~ message_fits (ASup [(B "BASE", true); (B "BASE", false)]) /\ ~ message_fits (ASup [(B "ADCS0", true)]) /\ ~ message_fits (ASup [(B "AD\s", true)]).
Proof.
  repeat split.
  - cbn. repeat constructor; cbn; intuition discriminate.
  - repeat constructor; try (cbn; intuition discriminate); apply unescape_iff; vm_compute; reflexivity.
  - intros [D _]. cbn in D. inversion D as [|? ? N _]. apply N. now left.
  - intros [_ F]. inversion F as [|? ? (L & _) _]. discriminate.
  - intros [_ F]. inversion F as [|? ? (_ & _ & L) _]. apply unescape_iff in L. discriminate.
Qed.
Example C111_mod : message_fits (AMod [(B "NI", B "bob"); (B "I4", [])]) /\ ~ message_fits (AMod [(B "DE", B "a b")]) /\ ~ message_fits (AMod [(B "NIC", B "bob")]).
Proof.
  repeat split.
  - repeat constructor; cbn; intuition discriminate.
  - intros F. inversion F as [|? ? (_ & _ & _ & L & _) _]. apply L. cbn. tauto.
  - intros F. inversion F as [|? ? (L & _) _]. discriminate.
Qed.
Example C111_told : told (AStruct TInf (zeros inf_fields)) /\ ~ told (AStruct THub (zeros hub_fields)) /\ told (ARaw (B "XYZ") []) /\ ~ told (ARaw (B "MSG") (B "x")).
Proof.
  repeat split; auto.
  - intros s J. vm_compute in J. intuition discriminate.
  - intros J. vm_compute in J. intuition discriminate.
  - intros [N _]. apply (N TChat). vm_compute. tauto.
Qed.

(** ** C112: packets *)

Theorem C112_packet pf sp p : converts pf ->
  ((exists p', decode_packet pf sp (marshal_packet p) = Ok p' /\ same_packet p p') <-> packet_fits p).
Proof. intros PF. exact (packet_arrives pf PF sp p). Qed.
Print Assumptions C112_packet.

(** A private message. *)
Definition C112_chat : packet := PDirect (B "AAAB") (B "AAAC") (AStruct TChat (B "a b", (Some (B "AAAB"), (true, (0%Z, tt))))).
(** A status for those with a feature. *)
Definition C112_status (sev : Z) : packet := PFeature (B "AAAB") [(B "TCP4", true)] (ASta {| st_sev := sev; st_code := 0; st_msg := B "x" |}).
Example C112_fits : packet_fits C112_chat /\ packet_fits (C112_status 1).
Proof.
  split; apply (C112_packet (fun _ => FErr) 0); try (intros s z; discriminate).
  - exists C112_chat. split; [vm_compute; reflexivity|]. now split.
  - exists (C112_status 1). split; [vm_compute; reflexivity|]. now split.
Qed.
(** A payload which starts with a minus sign is taken for a feature. *)
Example C112_minus : ~ packet_fits (C112_status (-1)) /\ message_fits (message (C112_status (-1))).
Proof.
  split; [|split; [right; cbn; lia|cbn; unfold int64; lia]]. intros (_ & _ & _ & _ & _ & d & D & _ & S). apply message_text_iff in D.
  vm_compute in D. subst d. destruct S as (_ & S & _). now apply S.
Qed.
(** Hub information is taken for user information. *)
Example C112_hub : ~ packet_fits (PInfo (AStruct THub (zeros hub_fields))).
Proof. intros (_ & T & _). exact T. Qed.

(** ** C113: from the writer to ReadPacket *)

Theorem C113_end_to_end {W dst W' Z'} dinit dstep (act : Z' -> zaction Z') pf script size tmo (s0 : W) h e s (x : awriter W dst) maxline keep (g : W' -> W') c sps w :
  converts pf ->
  aruns dinit dstep s0 (afresh script size tmo) (h ++ [(AFlush, e)]) s x -> Forall no_switch h -> wr_err (aw_line x) = None ->
  Forall one_line (packets (aop_items h)) -> Forall packet_fits (packets (aop_items h)) ->
  Forall (fun it => within maxline (length (item_line it))) (aop_items h) -> within maxline 1 ->
  Forall SpecLine.quiet c -> script_data c = wire_of x -> keep = Some (fun w => (g w, None)) \/ keep = None /\ (forall w, g w = w) ->
  exists os w2 R2, eventually (fun f => run_rcalls act pf f (map CPacket sps) w (areader_on maxline keep c) = Some (os, w2, R2)) /\
    length os = length sps /\ delivers os (packets (aop_items h)) /\
    (length (packets (aop_items h)) < length sps -> w2 = Nat.iter (keep_alives (aop_items h)) g w).
Proof.
  intros PF H Hn He Ho Hf Hw Hw1 Hq Hd Hk.
  assert (Hn' : Forall no_switch (h ++ [(AFlush, e)])) by (apply Forall_app; split; [exact Hn|repeat constructor]).
  destruct (arrives dinit dstep _ _ _ _ _ _ _ H Hn' He) as (_ & pending & K1 & K2). rewrite (K2 h e eq_refl), app_nil_r in K1.
  rewrite items_app in K1. cbn [aop_items flat_map fst] in K1. rewrite app_nil_r in K1. fold (aop_items h) in K1.
  destruct (C74_lines act pf maxline keep g c (map item_line (aop_items h)) [] (map CPacket sps) w) as (w2 & R2 & J1 & J2); auto.
  - rewrite Hd, app_nil_r. symmetry. exact K1.
  - now apply items_are_lines.
  - now apply Forall_map.
  - exists (answers pf (map CPacket sps) (map marshal_packet (packets (aop_items h)))), w2, R2. rewrite items_packet_lines in J1. split; [exact J1|].
    split; [now rewrite answers_length, map_length|]. split; [now apply fitting_answers|].
    intros L. rewrite <- items_keep_lines. apply J2. now rewrite items_packet_lines, !map_length.
Qed.
Print Assumptions C113_end_to_end.

(** The other direction: a packet which does not fit is not returned as it was written. *)
Theorem C113_changed pf sp p : converts pf -> ~ packet_fits p -> forall p', about pf (CPacket sp) (marshal_packet p) = APacket (Ok p') -> ~ same_packet p p'.
Proof. intros PF N p' E S. apply N, (packet_arrives pf PF sp p). exists p'. cbn [about] in E. injection E as E. now split. Qed.
Print Assumptions C113_changed.

(** With a compressed section in the middle, as in C74. *)
Theorem C113_compressed {W dst W' Z'} dinit dstep (act : Z' -> zaction Z') zinit pf script size tmo (s0 : W) h1 p lvl h2 h3 e s (x : awriter W dst)
    maxline keep (g : W' -> W') c sps1 sps2 w : let start := h1 ++ [(APkt p, None)] in
  converts pf -> matching act zinit dinit dstep -> (-2 <= lvl <= 9)%Z -> Forall honest script ->
  aruns dinit dstep s0 (afresh script size tmo) (start ++ (AEnable lvl, None) :: h2 ++ (ADisable, None) :: h3 ++ [(AFlush, e)]) s x ->
  Forall no_switch (start ++ h2 ++ h3) -> wr_err (aw_line x) = None ->
  Forall one_line (packets (aop_items (start ++ h2 ++ h3))) -> Forall packet_fits (packets (aop_items (start ++ h2 ++ h3))) ->
  Forall (fun it => within maxline (length (item_line it))) (aop_items (start ++ h2 ++ h3)) -> within maxline 1 ->
  Forall solid c -> script_data c = wire_of x -> keep = Some (fun w => (g w, None)) \/ keep = None /\ (forall w, g w = w) ->
  length sps1 = length (packets (aop_items start)) ->
  exists os1 os2 r1 r2 w2 R2, let w1 := Nat.iter (keep_alives (aop_items start)) g w in
    eventually (fun f => run_rcalls act pf f (map CPacket sps1) w (areader_on maxline keep c) = Some (os1, w1, mkAreader r1 keep)) /\
    eventually (fun f => enable_zlib act zinit f r1 = Some (ROk tt, r2)) /\
    eventually (fun f => run_rcalls act pf f (map CPacket sps2) w1 (mkAreader r2 keep) = Some (os2, w2, R2)) /\
    length os1 = length sps1 /\ delivers os1 (packets (aop_items start)) /\
    length os2 = length sps2 /\ delivers os2 (packets (aop_items (h2 ++ h3))).
Proof.
  cbv zeta. set (start := h1 ++ [(APkt p, None)]). intros PF Hm Hl Hh H Hn He Ho Hf Hw Hw1 Hc Hd Hk Ls.
  assert (Hka : match keep with None => forall w, g w = w | Some k => forall w, k w = (g w, None) end) by (destruct Hk as [->|[-> Q]]; [reflexivity|exact Q]).
  destruct (sections_arrive dinit dstep act zinit script size tmo s0 start lvl h2 h3 e s x maxline c w Hm Hl Hh H Hn He Ho) as (r1 & r2 & K1 & K2 & K3); auto.
  { now apply Forall_map. }
  rewrite items_app, packets_app in Hf, Ho. apply Forall_app in Hf. destruct Hf as [Hf1 Hf2]. apply Forall_app in Ho. destruct Ho as [Ho1 Ho2].
  destruct (calls_answers act pf keep g Hka (map CPacket sps2) _ (Nat.iter (keep_alives (aop_items start)) g w) r2 K3 (items_are_lines _ Ho2)) as (w2 & R2 & J1 & _).
  rewrite items_packet_lines in J1.
  exists (answers pf (map CPacket sps1) (map marshal_packet (packets (aop_items start)))), (answers pf (map CPacket sps2) (map marshal_packet (packets (aop_items (h2 ++ h3))))).
  exists r1, r2, w2, R2. split; [|split; [exact K2|split; [exact J1|]]].
  - assert (ES : map item_line (aop_items start) = map item_line (aop_items h1) ++ [marshal_packet p]) by (unfold start; now rewrite items_app, map_app).
    pose proof (items_are_lines _ Ho1) as HL. rewrite ES in K1, HL.
    assert (Q := leads_answers act pf keep g Hka r1 (map CPacket sps1) _ w _ _ (packet_not_keep p) K1 HL). rewrite <- ES in Q. rewrite items_packet_lines, items_keep_lines in Q.
    rewrite !map_length in Q. specialize (Q Ls). exact Q.
  - rewrite !answers_length, !map_length. split; [reflexivity|]. split; [now apply fitting_answers|]. split; [reflexivity|now apply fitting_answers].
Qed.
Print Assumptions C113_compressed.

(** The calls of the example: a typed message in a packet, a keep-alive and a message through a stream. *)
Definition C113_calls : list (aop * option error) :=
  [(APkt C112_chat, None); (AKeep, None); (AStream SHub (ASup [(B "BASE", true); (B "TIGR", false)]), None)].
Example C113_instance : exists x : awriter unit bytes,
  aruns store_init PropsLineWriter.store tt (afresh [WR (Some 20) None] 8 None) (C113_calls ++ [(AFlush, None)]) tt x /\ wr_err (aw_line x) = None /\
  wire_of x = B "DMSG AAAB AAAC a\sb PMAAAB ME1" ++ [x0a; x0a] ++ B "HSUP ADBASE RMTIGR" ++ [x0a] /\
  Forall one_line (packets (aop_items C113_calls)) /\ Forall packet_fits (packets (aop_items C113_calls)).
Proof.
  eexists. split; [unfold C113_calls; cbn [app]; runs|]. split; [vm_compute; reflexivity|]. split; [vm_compute; reflexivity|].
  cbn [C113_calls aop_items flat_map fst app packets stream_packet]. split.
  - repeat constructor; cbn; intuition discriminate.
  - constructor; [apply C112_fits|]. constructor; [|constructor]. split; [apply C111_features|]. split; [exact I|]. split; [exact I|]. split; [reflexivity|].
    split; [cbn; intuition discriminate|]. exists (B "ADBASE RMTIGR"). split; [apply message_text_iff; vm_compute; reflexivity|]. split; [cbn; intuition discriminate|exact I].
Qed.
