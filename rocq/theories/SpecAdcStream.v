(** Independent specification of what a whole ADC stream means for any sequence of calls. *)
From Verif Require Import Base SpecLine LineReader AdcValue AdcMessage AdcPacket SpecAdc SpecAdcMessage SpecAdcRead AdcReader SpecAdcReader.

(** A feature packet that ends in an incomplete selector, with hardly any capacity behind the line. *)
Definition cut_selector (sp : nat) (l : bytes) : Prop :=
  exists name data id sep x c t, framed "F" name data l /\ ~ In x00 l /\ data = id ++ sep :: x ++ [x0a] /\ length id = 4 /\
    (sep = " "%byte \/ sep = x0a) /\ selectors x (c :: t) /\ (c = "+"%byte \/ c = "-"%byte) /\ length (c :: t) + 1 + sp < 5.

(** A result is one of the good ones, a crash where one is due, or else an error. *)
Definition result_means {A} (good : A -> Prop) (crash : Prop) (x : res A) : Prop :=
  match x with Ok a => good a | Panic => crash | Err _ => (forall a, ~ good a) /\ ~ crash end.

(** What a call returns for the line [l]: ReadPacket a packet with its message, ReadPacketRaw a packet
    whose message is not decoded, ReadInfo and ReadClient the message of a packet of that kind. *)
Definition call_means (pf : bytes -> float_result) (c : rcall) (l : bytes) (a : answer) : Prop :=
  match c, a with
  | CRaw sp, APacket x => result_means (packet_read l) (cut_selector sp l) x
  | CPacket sp, APacket x => result_means (packet_message_read pf l)
      (cut_selector sp l \/ exists q name d, packet_read l q /\ raw q name d /\ message_crash pf name d) x
  | CInfo sp, AMessage x => result_means (fun m => exists name d, packet_read l (PInfo (ARaw name d)) /\ message_read pf name d m)
      (cut_selector sp l \/ exists name d, packet_read l (PInfo (ARaw name d)) /\ message_crash pf name d) x
  | CClient sp, AMessage x => result_means (fun m => exists name d, packet_read l (PClient (ARaw name d)) /\ message_read pf name d m)
      (cut_selector sp l \/ exists name d, packet_read l (PClient (ARaw name d)) /\ message_crash pf name d) x
  | _, _ => False
  end.

(** What happens on a keep-alive. *)
Definition on_keep {W} (keep : option (W -> W * option error)) (w : W) : W * option error :=
  match keep with None => (w, None) | Some k => k w end.

(** The answers to calls on a stream of lines: each call takes the next line that is no keep-alive.  An error of
    the callback ends the call; the next one continues behind the keep-alive. *)
Inductive adc_session {W} (pf : bytes -> float_result) (keep : option (W -> W * option error))
  : W -> list rcall -> list bytes -> list answer -> W -> Prop :=
| as_done w ls : adc_session pf keep w [] ls [] w
| as_eof w c cs os w2 : adc_session pf keep w cs [] os w2 -> adc_session pf keep w (c :: cs) [] (failed c EEOF :: os) w2
| as_keep w w1 c cs ls os w2 : on_keep keep w = (w1, None) -> adc_session pf keep w1 (c :: cs) ls os w2 ->
    adc_session pf keep w (c :: cs) ([x0a] :: ls) os w2
| as_keep_error w w1 e c cs ls os w2 : on_keep keep w = (w1, Some e) -> adc_session pf keep w1 cs ls os w2 ->
    adc_session pf keep w (c :: cs) ([x0a] :: ls) (failed c e :: os) w2
| as_line w c cs l ls a os w2 : l <> [x0a] -> call_means pf c l a -> adc_session pf keep w cs ls os w2 ->
    adc_session pf keep w (c :: cs) (l :: ls) (a :: os) w2.

(** Answers that a caller cannot tell apart, up to the texts of errors. *)
Definition same_answer (a b : answer) : Prop :=
  match a, b with
  | APacket (Ok p), APacket (Ok q) => same_packet p q
  | AMessage (Ok m), AMessage (Ok n) => same_message m n
  | APacket (Err _), APacket (Err _) | AMessage (Err _), AMessage (Err _) | APacket Panic, APacket Panic | AMessage Panic, AMessage Panic => True
  | _, _ => False
  end.
