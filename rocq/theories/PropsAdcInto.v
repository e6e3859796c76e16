(** Property C117: decoding an ADC payload into a message in use. *)
From Verif Require Import Base BaseFacts Num Tiger AdcText AdcValue AdcMessage AdcPacket SpecText SpecHash SpecAdc SpecAdcMessage SpecAdcRead SpecAdcInto.
From Verif Require Import AdcIntoFacts.

(** Unmarshal into any message, whatever it holds: accepted exactly as specified, with that result. *)
Theorem C117_decoded pf s old m : typed old ->
  ((exists m', unmarshal pf s old = Ok m' /\ same_message m m') <-> decoded_into pf s old m).
Proof. exact (into_iff pf s old m). Qed.
Print Assumptions C117_decoded.

(** It crashes exactly as specified; all other payloads are refused with an error. *)
Theorem C117_crash pf s old : typed old -> (unmarshal pf s old = Panic <-> crash_into pf s old).
Proof. exact (into_crash_iff pf s old). Qed.
Print Assumptions C117_crash.

(** DecodeMessageTo of a packet: only undecoded messages of the same type are decoded, as above. *)
Theorem C117_decode_to pf p old m : typed old ->
  ((exists m', decode_message_to pf p old = Ok m' /\ same_message m m') <-> exists d, raw p (cmd old) d /\ decoded_into pf d old m).
Proof.
  intros T. unfold decode_message_to, raw. split.
  - intros (m' & H & Q). destruct (message p) as [| | | | | | | | | |t d] eqn:M; try discriminate. destruct (bytes_eqb (cmd old) t) eqn:E; [|discriminate].
    apply bytes_eqb_true in E. subst t. exists d. split; [reflexivity|]. apply (into_iff pf d old m T). eauto.
  - intros (d & R & D). rewrite R, bytes_eqb_refl. now apply (into_iff pf d old m T).
Qed.
Print Assumptions C117_decode_to.

Example C117_case :
  decoded_into (fun _ => FErr) (B "RMBASE ADPING") (ASup [(B "BASE", true); (B "TIGR", true)]) (ASup [(B "PING", true); (B "TIGR", true); (B "BASE", false)]) /\
  decoded_into (fun _ => FErr) (B "file a 0 5") (AGet {| g_type := B "tthl"; g_path := B "b"; g_start := 7; g_bytes := 9; g_comp := true |})
    (AGet {| g_type := B "file"; g_path := B "a"; g_start := 0; g_bytes := 5; g_comp := true |}) /\
  decoded_into (fun _ => FErr) (B "NIa\sb SL SS12") (AMod [(B "DE", B "old")]) (AMod [(B "NI", B "a\sb"); (B "SL", []); (B "SS", B "12")]) /\
  (forall m, ~ decoded_into (fun _ => FErr) (B "NIa  SS12") (AMod []) m) /\
  (forall m, ~ decoded_into (fun _ => FErr) (B "NIa S") (AMod []) m) /\
  decoded_into (fun _ => FErr) (B "bye TS9") (AStruct TChat (B "hello", (Some (B "AAAB"), (true, (7%Z, tt))))) (AStruct TChat (B "bye", (Some (B "AAAB"), (true, (9%Z, tt))))) /\
  crash_into (fun _ => FErr) (B "ADC/1.0") (AStruct TRcm (B "ADC/0.9", (B "t", tt))).
Proof.
  split; [|split; [|split; [|split; [|split; [|split]]]]].
  - apply C117_decoded; [repeat constructor; cbn; intuition discriminate|]. exists (ASup [(B "BASE", false); (B "TIGR", true); (B "PING", true)]). split; [vm_compute; reflexivity|].
    cbn [same_message]. split; [repeat constructor; cbn; intuition discriminate|]. split; [repeat constructor; cbn; intuition discriminate|]. intros k b. cbn [In]. tauto.
  - apply C117_decoded; [exact Logic.I|]. eexists. split; vm_compute; reflexivity.
  - apply C117_decoded; [exact Logic.I|]. eexists. split; vm_compute; reflexivity.
  - intros m H. apply C117_decoded in H; [|exact Logic.I]. destruct H as (m' & H & _). vm_compute in H. discriminate.
  - intros m H. apply C117_decoded in H; [|exact Logic.I]. destruct H as (m' & H & _). vm_compute in H. discriminate.
  - apply C117_decoded; [cbn; auto|]. eexists. split; vm_compute; reflexivity.
  - apply C117_crash; [cbn; auto|]. vm_compute. reflexivity.
Qed.
