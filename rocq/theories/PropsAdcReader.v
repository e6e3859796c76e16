(** Property theorem C74: the ADC packet reader and writer, and the way between them.
    Specifications: SpecAdcReader.v, SpecAdcMessage.v, SpecLine.v, SpecWriter.v.  Proofs: AdcEndToEnd.v.

    [dinit], [dstep] are an arbitrary compressor, [act] an arbitrary inflater, [W] an arbitrary
    type of hook state, [pf] an arbitrary behaviour of strconv.ParseFloat. *)
From Verif Require Import Base BaseFacts LineReader SpecLine LineReaderStream LineWriter SpecWriter NmdcReaderFacts NmdcEndToEnd PropsLineWriter PropsNmdcReader.
From Verif Require Import AdcValue AdcMessage AdcPacket SpecAdc SpecAdcMessage AdcMessageFacts AdcPacketFacts AdcReader AdcWriter SpecAdcReader AdcEndToEnd PropsAdcPacket.

Ltac runs := first [apply ar_nil|eapply ar_cons; [vm_compute; reflexivity|runs]].
Definition wire_of {W dst} (x : awriter W dst) : bytes := delivered (cn_trace (wr_conn (aw_line x))).

(** ** C74: ADC end to end *)

(** Reading: whatever the lines of the stream contain, each call is answered by its own line, in
    order; keep-alives are skipped and reported once each.  A bad line does not affect others. *)
Theorem C74_lines {W Z'} (act : Z' -> zaction Z') pf maxline keep (g : W -> W) c ls rest cs w :
  Forall SpecLine.quiet c -> script_data c = concat ls ++ rest -> Forall (is_line x0a) ls -> ~ In x0a rest ->
  Forall (fun l => within maxline (length l)) ls -> within maxline (S (length rest)) ->
  keep = Some (fun w => (g w, None)) \/ keep = None /\ (forall w, g w = w) ->
  exists w2 R2, eventually (fun f => run_rcalls act pf f cs w (areader_on maxline keep c) = Some (answers pf cs (packet_lines ls), w2, R2)) /\
    (length (packet_lines ls) < length cs -> w2 = Nat.iter (keep_alive_lines ls) g w).
Proof.
  intros Hq Hs Hl Hr Hw Hwr Hk. apply (calls_answers act pf keep g); [|now apply (limited_supplies_nl act maxline c ls rest)|exact Hl].
  destruct Hk as [->|[-> H]]; [reflexivity|exact H].
Qed.
Print Assumptions C74_lines.

(** Writing: exactly the lines of the packets and keep-alives, in order. *)
Theorem C74_written {W dst} dinit dstep script size tmo (s0 : W) h s (x : awriter W dst) :
  aruns dinit dstep s0 (afresh script size tmo) h s x -> Forall no_switch h -> wr_err (aw_line x) = None ->
  Forall (fun r => snd r = None) h /\
  exists pending, concat (map item_line (aop_items h)) = wire_of x ++ pending /\ (forall h' e, h = h' ++ [(AFlush, e)] -> pending = []).
Proof. exact (arrives dinit dstep script size tmo s0 h s x). Qed.
Print Assumptions C74_written.

Theorem C74_end_to_end {W dst W' Z'} dinit dstep (act : Z' -> zaction Z') pf script size tmo (s0 : W) h e s (x : awriter W dst) maxline keep (g : W' -> W') c sps w :
  aruns dinit dstep s0 (afresh script size tmo) (h ++ [(AFlush, e)]) s x -> Forall no_switch h -> wr_err (aw_line x) = None ->
  Forall one_line (packets (aop_items h)) -> Forall faithful (packets (aop_items h)) ->
  Forall (fun it => within maxline (length (item_line it))) (aop_items h) -> within maxline 1 ->
  Forall SpecLine.quiet c -> script_data c = wire_of x -> keep = Some (fun w => (g w, None)) \/ keep = None /\ (forall w, g w = w) ->
  exists w2 R2, eventually (fun f => run_rcalls act pf f (map CRaw sps) w (areader_on maxline keep c) =
      Some (packets_then_eof (length sps) (packets (aop_items h)), w2, R2)) /\
    (length (packets (aop_items h)) < length sps -> w2 = Nat.iter (keep_alives (aop_items h)) g w).
Proof.
  intros H Hn He Ho Hf Hw Hw1 Hq Hd Hk.
  assert (Hn' : Forall no_switch (h ++ [(AFlush, e)])) by (apply Forall_app; split; [exact Hn|repeat constructor]).
  destruct (arrives dinit dstep _ _ _ _ _ _ _ H Hn' He) as (_ & pending & K1 & K2). rewrite (K2 h e eq_refl), app_nil_r in K1.
  rewrite items_app in K1. cbn [aop_items flat_map fst] in K1. rewrite app_nil_r in K1. fold (aop_items h) in K1.
  destruct (C74_lines act pf maxline keep g c (map item_line (aop_items h)) [] (map CRaw sps) w) as (w2 & R2 & J1 & J2); auto.
  - rewrite Hd, app_nil_r. symmetry. exact K1.
  - now apply items_are_lines.
  - now apply Forall_map.
  - exists w2, R2. rewrite items_packet_lines, (faithful_answers pf _ _ Hf) in J1. split; [exact J1|]. intros L. rewrite <- items_keep_lines. apply J2. now rewrite items_packet_lines, !map_length.
Qed.
Print Assumptions C74_end_to_end.

(** With a compressed section in the middle; the reader decompresses after the last packet before it. *)
Theorem C74_compressed {W dst W' Z'} dinit dstep (act : Z' -> zaction Z') zinit pf script size tmo (s0 : W) h1 p lvl h2 h3 e s (x : awriter W dst)
    maxline keep (g : W' -> W') c sps1 sps2 w : let start := h1 ++ [(APkt p, None)] in
  matching act zinit dinit dstep -> (-2 <= lvl <= 9)%Z -> Forall honest script ->
  aruns dinit dstep s0 (afresh script size tmo) (start ++ (AEnable lvl, None) :: h2 ++ (ADisable, None) :: h3 ++ [(AFlush, e)]) s x ->
  Forall no_switch (start ++ h2 ++ h3) -> wr_err (aw_line x) = None ->
  Forall one_line (packets (aop_items (start ++ h2 ++ h3))) -> Forall faithful (packets (aop_items (start ++ h2 ++ h3))) ->
  Forall (fun it => within maxline (length (item_line it))) (aop_items (start ++ h2 ++ h3)) -> within maxline 1 ->
  Forall solid c -> script_data c = wire_of x -> keep = Some (fun w => (g w, None)) \/ keep = None /\ (forall w, g w = w) ->
  length sps1 = length (packets (aop_items start)) ->
  exists r1 r2 w2 R2, let w1 := Nat.iter (keep_alives (aop_items start)) g w in
    eventually (fun f => run_rcalls act pf f (map CRaw sps1) w (areader_on maxline keep c) =
      Some (map (fun p => APacket (Ok p)) (packets (aop_items start)), w1, mkAreader r1 keep)) /\
    eventually (fun f => enable_zlib act zinit f r1 = Some (ROk tt, r2)) /\
    eventually (fun f => run_rcalls act pf f (map CRaw sps2) w1 (mkAreader r2 keep) =
      Some (packets_then_eof (length sps2) (packets (aop_items (h2 ++ h3))), w2, R2)).
Proof.
  cbv zeta. set (start := h1 ++ [(APkt p, None)]). intros Hm Hl Hh H Hn He Ho Hf Hw Hw1 Hc Hd Hk Ls.
  assert (Hka : match keep with None => forall w, g w = w | Some k => forall w, k w = (g w, None) end) by (destruct Hk as [->|[-> Q]]; [reflexivity|exact Q]).
  destruct (sections_arrive dinit dstep act zinit script size tmo s0 start lvl h2 h3 e s x maxline c w Hm Hl Hh H Hn He Ho) as (r1 & r2 & K1 & K2 & K3); auto.
  { now apply Forall_map. }
  rewrite items_app, packets_app in Hf, Ho. apply Forall_app in Hf. destruct Hf as [Hf1 Hf2]. apply Forall_app in Ho. destruct Ho as [Ho1 Ho2].
  destruct (calls_answers act pf keep g Hka (map CRaw sps2) _ (Nat.iter (keep_alives (aop_items start)) g w) r2 K3 (items_are_lines _ Ho2)) as (w2 & R2 & J1 & _).
  rewrite items_packet_lines, (faithful_answers pf _ _ Hf2) in J1.
  exists r1, r2, w2, R2. split; [|split; [exact K2|exact J1]].
  assert (ES : map item_line (aop_items start) = map item_line (aop_items h1) ++ [marshal_packet p]) by (unfold start; now rewrite items_app, map_app).
  pose proof (items_are_lines _ Ho1) as HL. rewrite ES in K1, HL.
  assert (Q := leads_answers act pf keep g Hka r1 (map CRaw sps1) _ w _ _ (packet_not_keep p) K1 HL). rewrite <- ES in Q. rewrite items_packet_lines, items_keep_lines in Q.
  rewrite !map_length in Q. specialize (Q Ls). rewrite (faithful_answers pf _ _ Hf1) in Q. unfold packets_then_eof in Q. rewrite Ls in Q.
  rewrite firstn_app, map_length, Nat.sub_diag, <- (map_length (fun p => APacket (Ok p))), firstn_all in Q. cbn [firstn] in Q. rewrite app_nil_r in Q. exact Q.
Qed.
Print Assumptions C74_compressed.

(** ReadInfo and ReadClient: the decoded message of a packet of their kind, refusal of others *)
Theorem C74_info pf sp t v p : p = PInfo (AStruct t v) \/ p = PClient (AStruct t v) -> t <> THub -> carries_all (fields_of t) v -> ~ In x00 (marshal (AStruct t v)) ->
  about pf (CInfo sp) (marshal_packet p) = AMessage (match p with PInfo m => Ok m | _ => Err (EText "expected info command") end) /\
  about pf (CClient sp) (marshal_packet p) = AMessage (match p with PClient m => Ok m | _ => Err (EText "expected client command") end) /\
  about pf (CPacket sp) (marshal_packet p) = APacket (Ok p).
Proof.
  intros P T C N. assert (G : registered (cmd (AStruct t v)) = Some (new_struct t)) by (destruct t; try reflexivity; now elim T).
  assert (R : decode_packet_raw sp (marshal_packet p) = Ok (set_message (ARaw (cmd (AStruct t v)) (marshal (AStruct t v))) p)).
  { rewrite marshal_as_raw. destruct P as [-> | ->]; cbn [message];
      (apply (packet_roundtrip sp _ (cmd (AStruct t v)) (marshal (AStruct t v))); [reflexivity|now destruct t|destruct t; cbn; intuition discriminate|exact N|exact I|exact I]). }
  assert (U : unmarshal_message pf (cmd (AStruct t v)) (marshal (AStruct t v)) = Ok (AStruct t v)) by (unfold unmarshal_message; rewrite G; exact (message_roundtrip pf t v C)).
  cbn [about]. unfold decode_packet. rewrite R. destruct P as [-> | ->]; cbn [bind set_message info_message client_message]; rewrite ?U; (split; [reflexivity|split; [reflexivity|]]);
    unfold decode_message; cbn [message]; rewrite U; reflexivity.
Qed.
Print Assumptions C74_info.

(** A stream with keep-alives, a bad line and an incomplete rest, read in pieces *)
Definition C74_stream : script := [RD (B "IMSG hel") None; RD (B "lo" ++ [x0a; x0a] ++ B "XBAD" ++ [x0a]) None; RD (B "CZON" ++ [x0a; x0a] ++ B "HM") None].
Example C74_instance_lines : let ls := [B "IMSG hello" ++ [x0a]; [x0a]; B "XBAD" ++ [x0a]; B "CZON" ++ [x0a]; [x0a]] in
  script_data C74_stream = concat ls ++ B "HM" /\ Forall (is_line x0a) ls /\ Forall SpecLine.quiet C74_stream /\
  match run_rcalls nozlib (fun _ => FErr) 60 [CInfo 3; CRaw 0; CClient 9; CPacket 1] 0 (areader_on 100 (Some (fun n => (S n, None))) C74_stream) with
  | Some (a, n, _) => n = 2 /\ a = [AMessage (Ok (AStruct TChat (B "hello", (None, (false, (0%Z, tt)))))); APacket (Err (EText "unknown command kind")); AMessage (Ok AZon); APacket (Err EEOF)]
  | None => False
  end.
Proof.
  cbv zeta. split; [reflexivity|]. split.
  { repeat constructor; (eexists; split; [try reflexivity|]); try (instantiate (1 := [])); try reflexivity; cbn; intuition discriminate. }
  split; [repeat constructor; left; discriminate|]. vm_compute. repeat split; reflexivity.
Qed.

Definition C74_calls : list (aop * option error) :=
  [(APkt (PHub (ARaw (B "SUP") (B "ADBASE ADTIGR"))), None); (AKeep, None); (AStream (SBroadcast (B "AAAB")) (ARaw (B "MSG") (B "hi")), None); (AFlush, None);
   (AStream (SFeature (B "AAAB") [(B "TCP4", true)]) (ARaw (B "SCH") (B "ANx")), None)].
Example C74_instance : exists x : awriter unit bytes,
  aruns store_init PropsLineWriter.store tt (afresh [WR (Some 20) None] 8 None) (C74_calls ++ [(AFlush, None)]) tt x /\ wr_err (aw_line x) = None /\
  wire_of x = B "HSUP ADBASE ADTIGR" ++ [x0a; x0a] ++ B "BMSG AAAB hi" ++ [x0a] ++ B "FSCH AAAB +TCP4 ANx" ++ [x0a] /\
  Forall one_line (packets (aop_items C74_calls)) /\ Forall faithful (packets (aop_items C74_calls)).
Proof.
  eexists. split; [unfold C74_calls; cbn [app]; runs|]. split; [vm_compute; reflexivity|]. split; [vm_compute; reflexivity|].
  cbn [C74_calls aop_items flat_map fst app packets stream_packet]. split.
  - repeat constructor; cbn; intuition discriminate.
  - repeat constructor; eexists; eexists; (split; [reflexivity|]); (split; [reflexivity|]); repeat split; try (cbn; intuition discriminate); repeat constructor; cbn; intuition discriminate.
Qed.

(** With the compressor of C16 *)
Example C74_instance_compressed : exists x : awriter unit unit, let h := [(AKeep, None); (AStream SInfo (ARaw (B "MSG") (B "x")), None)] in
  aruns (fun _ => tt) tag tt (afresh [] 7 None) (([] ++ [(APkt (PInfo AZon), None)]) ++ (AEnable 3, None) :: h ++ (ADisable, None) :: h ++ [(AFlush, None)]) tt x /\ wr_err (aw_line x) = None /\
  exists r1 r2, let c := [RD (wire_of x) None] in let keep := Some (fun n => (S n, None)) in
    run_rcalls untag (fun _ => FErr) 200 [CRaw 0] 0 (areader_on 100 keep c) = Some ([APacket (Ok (PInfo (ARaw (B "ZON") [])))], 0, mkAreader r1 keep) /\
    enable_zlib untag GTag 200 r1 = Some (ROk tt, r2) /\
    match run_rcalls untag (fun _ => FErr) 200 [CRaw 0; CRaw 0; CRaw 0] 0 (mkAreader r2 keep) with
    | Some (a, n, _) => n = 2 /\ a = [APacket (Ok (PInfo (ARaw (B "MSG") (B "x")))); APacket (Ok (PInfo (ARaw (B "MSG") (B "x")))); APacket (Err EEOF)]
    | None => False
    end.
Proof.
  eexists. cbv zeta. split; [cbn [app]; runs|]. split; [vm_compute; reflexivity|]. do 2 eexists.
  split; [vm_compute; reflexivity|]. split; [vm_compute; reflexivity|]. vm_compute. split; reflexivity.
Qed.
