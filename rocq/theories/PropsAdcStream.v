(** Property C105: what an ADC stream means. *)
From Verif Require Import Base BaseFacts LineReader SpecLine LineReaderStream NmdcReaderFacts NmdcEndToEnd.
From Verif Require Import AdcValue AdcMessage AdcPacket SpecAdc SpecAdcMessage SpecAdcRead AdcReader SpecAdcReader AdcEndToEnd SpecAdcStream AdcReadPackets AdcStreamFacts.

(** Any sequence of calls on any stream of lines: each gets the next line that is no keep-alive, and answers what the
    grammar of packets says about it. *)
Theorem C105_stream {W Z'} (act : Z' -> zaction Z') pf maxline (keep : option (W -> W * option error)) c ls rest cs w :
  Forall SpecLine.quiet c -> script_data c = concat ls ++ rest -> Forall (is_line x0a) ls -> ~ In x0a rest ->
  Forall (fun l => within maxline (length l)) ls -> within maxline (S (length rest)) ->
  exists os w2 R2, eventually (fun f => run_rcalls act pf f cs w (areader_on maxline keep c) = Some (os, w2, R2)) /\
    adc_session pf keep w cs ls os w2.
Proof.
  intros Hq Hs HL Hr Hw Hwr. apply calls_session; [|exact HL]. now apply (limited_supplies_nl act maxline c ls rest).
Qed.
Print Assumptions C105_stream.

(** The answers are determined, up to the texts of errors and the order inside of maps. *)
Theorem C105_unique pf c l a b : call_means pf c l a -> call_means pf c l b -> same_answer a b.
Proof. exact (call_unique pf c l a b). Qed.
Print Assumptions C105_unique.

(** So are those of a whole session, and the state of the callback. *)
Theorem C105_session_unique {W} pf (keep : option (W -> W * option error)) w cs ls os w2 os' w2' :
  adc_session pf keep w cs ls os w2 -> adc_session pf keep w cs ls os' w2' -> Forall2 same_answer os os' /\ w2 = w2'.
Proof. exact (session_unique pf keep w cs ls os w2 os' w2'). Qed.
Print Assumptions C105_session_unique.

(** For the examples: no compression; a callback that counts keep-alives and fails on the second one. *)
Definition C105_nozlib (z : unit) : zaction unit := ZLast [].
(** The callback. *)
Definition C105_keep (n : nat) : nat * option error := (S n, if (n =? 1)%nat then Some (EText "idle") else None).
(** The lines. *)
Definition C105_lines : list bytes :=
  map (fun s => s ++ [x0a]) [B "ISUP ADBASE RMPING"; []; B "BMSG AAAB hello\sworld"; B "XMSG AAAB"; []; B "CSTA 000 ok"; B "FSCH AAAB +"; B "IMSG no\zescape"; B "CINF NIx"].
(** The connection: the lines arrive in two parts, the rest of a line follows. *)
Definition C105_script : script := let s := concat C105_lines ++ B "rest" in [RD (firstn 30 s) None; RD (skipn 30 s) None].
Example C105_instance : Forall SpecLine.quiet C105_script /\ script_data C105_script = concat C105_lines ++ B "rest" /\
  Forall (is_line x0a) C105_lines /\ Forall (fun l => within 100 (length l)) C105_lines /\
  match run_rcalls C105_nozlib (fun _ => FErr) 200 [CInfo 0; CPacket 0; CRaw 0; CInfo 0; CClient 0; CRaw 0; CInfo 0; CInfo 0; CPacket 0] 0
    (areader_on 100 (Some C105_keep) C105_script) with
  | Some (os, w, _) => w = 2 /\ os =
      [AMessage (Ok (ASup [(B "PING", false); (B "BASE", true)])); APacket (Ok (PBroadcast (B "AAAB") (AStruct TChat (B "hello world", (None, (false, (0%Z, tt)))))));
       APacket (Err (EText "unknown command kind")); AMessage (Err (EText "idle")); AMessage (Ok (ASta {| st_sev := 0; st_code := 0; st_msg := B "ok" |}));
       APacket Panic; AMessage (Ok (AStruct TChat (B "no\zescape", (None, (false, (0%Z, tt)))))); AMessage (Err (EText "expected info command")); APacket (Err EEOF)]
  | None => False
  end.
Proof.
  split; [repeat constructor; right; reflexivity|]. split; [vm_compute; reflexivity|]. split.
  { unfold C105_lines. cbn [map]. repeat constructor; eexists; (split; [reflexivity|apply contains_byte_false; reflexivity]). }
  split; [unfold C105_lines; cbn [map]; repeat (apply Forall_cons; [right; vm_compute; discriminate|]); apply Forall_nil|]. vm_compute. split; reflexivity.
Qed.
(** An info message refused by ReadClient, and a crash of the message decoder. *)
Example C105_case : call_means (fun _ => FErr) (CClient 0) (B "ISUP ADBASE" ++ [x0a]) (AMessage (Err (EText "expected client command"))) /\
  call_means (fun _ => FErr) (CPacket 0) (B "DCTM AAAB AAAC ADC/1.0 1" ++ [x0a]) (APacket Panic) /\
  call_means (fun _ => FErr) (CRaw 0) (B "DCTM AAAB AAAC ADC/1.0 1" ++ [x0a]) (APacket (Ok (PDirect (B "AAAB") (B "AAAC") (ARaw (B "CTM") (B "ADC/1.0 1"))))).
Proof.
  assert (K : forall c l a, about (fun _ => FErr) c l = a -> call_means (fun _ => FErr) c l a) by (intros c l a <-; apply call_about).
  split; [|split]; apply K; vm_compute; reflexivity.
Qed.
