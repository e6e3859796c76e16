(** adc/reader.go on top of the line reader with its buffer (LineShare.v): ReadPacketRaw returns a
    payload inside of the line buffer, and the capacity behind a packet is what is left of it.
    OnKeepAlive is nil. *)
From Verif Require Import Base LineReader LineShare AdcMessage AdcPacket.

Section Read.
Context {W zstate : Type} (act : zstate -> zaction zstate) (grow : nat -> nat -> nat).

(** ReadPacketRaw, adc/reader.go:35-41,82-100: the packet and the line it was decoded from.
    None: out of fuel. *)
Fixpoint share_packet (fuel rl : nat) (w : W) (m : memory) (R : sreader (W:=W) (zstate:=zstate))
  : option (res packet * option slice * W * memory * sreader (W:=W) (zstate:=zstate)) :=
  match fuel with
  | O => None
  | S f =>
      match share_read_line act grow rl w m R with
      | None => None
      | Some (SPanic, w1, m1, R1) => Some (Panic, None, w1, m1, R1)
      | Some (SErr _ e, w1, m1, R1) => Some (Err e, None, w1, m1, R1)
      | Some (SLine s, w1, m1, R1) =>
          if negb (ends_line (view m1 s)) then Some (Err (EText "invalid packet delimiter"), None, w1, m1, R1)
          else if (1 <? sl_len s)%nat then Some (decode_packet_raw (spare_of m1 s) (view m1 s), Some s, w1, m1, R1)
          else share_packet f rl w1 m1 R1
      end
  end.
End Read.
