(** Property C118: what an ADC message holds after decoding into it failed. *)
From Verif Require Import Base BaseFacts Num Tiger AdcText AdcValue AdcMessage AdcPacket AdcLeft SpecText SpecHash SpecAdc SpecAdcMessage SpecAdcRead SpecAdcInto SpecAdcLeft.
From Verif Require Import AdcLeftFacts.

(** Unmarshal that returns an error, into any message: what the message holds then. *)
Theorem C118_failed pf s old m : typed old ->
  ((exists e, unmarshal pf s old = Err e) /\ same_message m (unmarshal_left pf s old) <-> failed_into pf s old m).
Proof. exact (failed_iff pf s old m). Qed.
Print Assumptions C118_failed.

(** After success it holds the result of C117. *)
Theorem C118_success pf s old m : unmarshal pf s old = Ok m -> unmarshal_left pf s old = m.
Proof. exact (left_ok pf s old m). Qed.
Print Assumptions C118_success.

(** DecodeMessageTo that returns an error: nothing changes unless an undecoded message of the same type is decoded, as above. *)
Theorem C118_decode_to pf p old m : typed old ->
  ((exists e, decode_message_to pf p old = Err e) /\ same_message m (decode_message_to_left pf p old) <->
   (exists d, raw p (cmd old) d /\ failed_into pf d old m) \/ (forall d, ~ raw p (cmd old) d) /\ same_message m old).
Proof.
  intros T. unfold decode_message_to, decode_message_to_left, raw. destruct (message p) as [| | | | | | | | | |t d] eqn:M;
    try (split; [intros [_ Q]; right; split; [discriminate|exact Q]|intros [(d & K & _)|[_ Q]]; [discriminate|split; [eauto|exact Q]]]).
  destruct (bytes_eqb (cmd old) t) eqn:E.
  - apply bytes_eqb_true in E. subst t. rewrite (failed_iff pf d old m T). split; [eauto|].
    intros [(d' & [= <-] & F)|[N _]]; [exact F|now contradiction (N d)].
  - apply bytes_eqb_false in E. split; [intros [_ Q]; right; split; [congruence|exact Q]|intros [(d' & K & _)|[_ Q]]; [congruence|split; [eauto|exact Q]]].
Qed.
Print Assumptions C118_decode_to.

Example C118_case :
  failed_into (fun _ => FErr) (B "bye TSx") (AStruct TChat (B "hello", (Some (B "AAAB"), (true, (7%Z, tt))))) (AStruct TChat (B "bye", (Some (B "AAAB"), (true, (7%Z, tt))))) /\
  failed_into (fun _ => FErr) (B "file a 99999999999999999999x 5") (AGet {| g_type := B "tthl"; g_path := B "b"; g_start := 7; g_bytes := 9; g_comp := true |})
    (AGet {| g_type := B "file"; g_path := B "a"; g_start := 9223372036854775807; g_bytes := 9; g_comp := true |}) /\
  failed_into (fun _ => FErr) (B "file a 1 2x ZL1") (AGet {| g_type := B "tthl"; g_path := B "b"; g_start := 7; g_bytes := 9; g_comp := false |})
    (AGet {| g_type := B "file"; g_path := B "a"; g_start := 1; g_bytes := 0; g_comp := false |}) /\
  failed_into (fun _ => FErr) (B "ADPING ADX RMBASE") (ASup [(B "BASE", true); (B "TIGR", true)]) (ASup [(B "BASE", false); (B "TIGR", true); (B "PING", true)]) /\
  failed_into (fun _ => FErr) (B "NIa S") (AMod [(B "DE", B "old")]) (AMod []) /\
  failed_into (fun _ => FErr) (B "AEBAGBAF1") (AGpa (B "xyz")) (AGpa [x01; x02; x03; x04; x05]).
Proof.
  split; [|split; [|split; [|split; [|split]]]]; (apply C118_failed; [first [exact Logic.I|solve [cbn; auto]|repeat constructor; cbn; intuition discriminate]|]).
  - split; [eexists; vm_compute; reflexivity|vm_compute; reflexivity].
  - split; [eexists; vm_compute; reflexivity|vm_compute; reflexivity].
  - split; [eexists; vm_compute; reflexivity|vm_compute; reflexivity].
  - split; [eexists; vm_compute; reflexivity|]. vm_compute. repeat split; try tauto; repeat constructor; cbn; intuition discriminate.
  - split; [eexists; vm_compute; reflexivity|vm_compute; reflexivity].
  - split; [eexists; vm_compute; reflexivity|vm_compute; reflexivity].
Qed.
