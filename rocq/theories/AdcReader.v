(** adc/reader.go: the ADC packet reader on top of the line reader (LineReader.v).

    OnKeepAlive is a function on an arbitrary state [W] (shared with the line hooks); it does
    not call methods of the reader.  The capacity behind the line returned by the line reader
    is an argument [spare] of each call.  Decoded packets are values: that ReadPacketRaw
    returns a payload inside of the buffer of the reader is in AdcShare.v. *)
From Verif Require Import Base LineReader AdcValue AdcMessage AdcPacket.

(** lineDelim, adc/packets.go:9 *)
Definition line_delim : byte := x0a.

(** Reader, adc/reader.go:18-23; a nil callback is None. *)
Record areader (W zstate : Type) := mkAreader {
  ar_line : reader W zstate;
  ar_keep : option (W -> W * option error)
}.
Arguments mkAreader {W zstate}. Arguments ar_line {W zstate}. Arguments ar_keep {W zstate}.

(** NewReader, adc/reader.go:11-15 *)
Definition new_areader {W zstate} (c : script) : areader W zstate := mkAreader (new_reader c line_delim) None.

Section Read.
Context {W zstate : Type} (act : zstate -> zaction zstate) (parse_float : bytes -> float_result).

(** The loop of readPacket, adc/reader.go:82-100.  None: out of fuel. *)
Fixpoint next_packet (fuel rl : nat) (keep : option (W -> W * option error)) (w : W) (r : reader W zstate)
  : option (res bytes * W * reader W zstate) :=
  match fuel with
  | O => None
  | S f =>
      match read_line act rl w r with
      | None => None
      | Some (LPanic, w1, r1) => Some (Panic, w1, r1)
      | Some (LErr _ e, w1, r1) => Some (Err e, w1, r1)
      | Some (LLine s, w1, r1) =>
          if negb (ends_line s) then Some (Err (EText "invalid packet delimiter"), w1, r1)
          else if (1 <? length s)%nat then Some (Ok s, w1, r1)
          else match keep with
               | None => next_packet f rl keep w1 r1
               | Some k => match k w1 with
                           | (w2, Some e) => Some (Err e, w2, r1)
                           | (w2, None) => next_packet f rl keep w2 r1
                           end
               end
      end
  end.

(** readPacket followed by [k], the common part of adc/reader.go:26-79 *)
Definition with_packet {A} (k : bytes -> res A) (fuel : nat) (w : W) (R : areader W zstate) : option (res A * W * areader W zstate) :=
  match next_packet fuel fuel (ar_keep R) w (ar_line R) with
  | None => None
  | Some (x, w1, r1) => Some (bind x k, w1, mkAreader r1 (ar_keep R))
  end.

(** ReadPacket, adc/reader.go:26-32 *)
Definition read_packet (spare : nat) := with_packet (decode_packet parse_float spare).
(** ReadPacketRaw and readPacketRaw, adc/reader.go:35-41,73-79 *)
Definition read_packet_raw (spare : nat) := with_packet (decode_packet_raw spare).

(** What ReadInfo does with a packet, adc/reader.go:48-55; RawMessage.Decode, adc/messages.go:68-70 *)
Definition info_message (p : packet) : res amsg :=
  match p with
  | PInfo (ARaw t d) => unmarshal_message parse_float t d
  | PInfo m => Ok m
  | _ => Err (EText "expected info command")
  end.
(** ReadInfo, adc/reader.go:43-56 *)
Definition read_info (spare : nat) := with_packet (fun s => do p <- decode_packet_raw spare s; info_message p).
(** What ReadClient does with a packet, adc/reader.go:63-70 *)
Definition client_message (p : packet) : res amsg :=
  match p with
  | PClient (ARaw t d) => unmarshal_message parse_float t d
  | PClient m => Ok m
  | _ => Err (EText "expected client command")
  end.
(** ReadClient, adc/reader.go:58-71 *)
Definition read_client (spare : nat) := with_packet (fun s => do p <- decode_packet_raw spare s; client_message p).
End Read.
