(** adc/reader.go, adc/messages.go and adc/packets.go with message types that a program has registered.

    AdcReader.v has the messages of the package.  Here a registered type is any type (Registry.v); Unmarshal into a new
    value of it is a function [decode] that may do anything to the program, may fail and may panic.  The program may
    register types between calls, in callbacks and while messages are decoded.

    Simplifications: Cmd has no effects; callbacks do not panic and do not call the reader. *)
From Verif Require Import Base LineReader AdcValue AdcMessage AdcPacket AdcReuse AdcReflect AdcReader Registry.

Section Foreign.
Context {W V Z : Type} (act : Z -> zaction Z).

(** The state of the program and the map of registered types, adc/messages.go:11-13 *)
Definition fenv : Type := W * type_map V.
(** Unmarshal into a value of a registered type, adc/messages.go:47-50 *)
Variable decode : gotype V -> bytes -> V -> fenv -> fenv * res V.

(** RegisterMessage, adc/messages.go:26-36; whether it panics *)
Definition f_register (t : gotype V) (v : V) (s : fenv) : fenv * bool :=
  let '(r, p) := register t v (snd s) in ((fst s, r), p).

(** UnmarshalMessage, adc/messages.go:38-52, called by RawMessage.Decode, adc/messages.go:68-70.  None: the message
    is a copy of the raw message. *)
Definition f_receive (name data : bytes) (s : fenv) : fenv * res (option V) :=
  match find_type (snd s) name with
  | None => (s, Ok None)
  | Some t =>
      match decode t data (go_zero t) s with
      | (s1, Ok v) => (s1, if go_pointer t then Panic else Ok (Some v))
      | (s1, Err e) => (s1, Err e)
      | (s1, Panic) => (s1, Panic)
      end
  end.

(** A packet and its message, if it is decoded: adc/packets.go:26-38,134-136 *)
Record fpacket := mkFp { fp_packet : packet; fp_msg : option V }.

(** decodeMessage, adc/packets.go:45-62, called by the DecodeMessage methods, adc/packets.go:150-152,208-210,280-282,368-370,464-466,548-550,626-628,745-747 *)
Definition f_decode (p : fpacket) (s : fenv) : fenv * res fpacket :=
  match fp_msg p, message (fp_packet p) with
  | None, ARaw name data =>
      match f_receive name data s with
      | (s1, Ok m) => (s1, Ok (mkFp (fp_packet p) m))
      | (s1, Err e) => (s1, Err e)
      | (s1, Panic) => (s1, Panic)
      end
  | _, _ => (s, Ok p)
  end.
(** decodeMessageTo, adc/packets.go:64-72, called by the DecodeMessageTo methods, adc/packets.go:154-156,212-214,284-286,372-374,468-470,552-554,630-632,749-751:
    into a message with the name [want] and the effect [un] of Unmarshal *)
Definition f_decode_to (p : fpacket) (want : bytes) (un : bytes -> fenv -> fenv * mend) (s : fenv) : fenv * mend :=
  match fp_msg p, message (fp_packet p) with
  | None, ARaw name data =>
      if bytes_eqb want name then un data s else (s, MFail (EText "expected another message"))
  | _, _ => (s, MFail (EText "expected raw message"))
  end.

(** Calls of the reader, adc/reader.go:26-71, each with the capacity behind the line, and of RegisterMessage, adc/messages.go:26 *)
Inductive fcall := FPacket (sp : nat) | FPacketRaw (sp : nat) | FInfo (sp : nat) | FClient (sp : nat) | FRegister (t : gotype V) (v : V).
(** What they return: a packet, a message (the raw one or a value), or whether RegisterMessage panics (adc/reader.go:26-71, adc/messages.go:26) *)
Inductive fanswer := FAPacket (p : res fpacket) | FAMessage (m : res (bytes * bytes + V)) | FADone (panics : bool).

(** An error or a panic before there is a packet, adc/reader.go:28-30,37-39,45-47,60-62 *)
Definition f_failed {A} (c : fcall) (x : res A) : fanswer :=
  match c with
  | FPacket _ | FPacketRaw _ => FAPacket match x with Err e => Err e | _ => Panic end
  | _ => FAMessage match x with Err e => Err e | _ => Panic end
  end.
(** The message of a packet decoded by RawMessage.Decode, adc/reader.go:52-54,67-69 *)
Definition f_message (name data : bytes) (s : fenv) : fenv * fanswer :=
  match f_receive name data s with
  | (s1, Ok None) => (s1, FAMessage (Ok (inl (name, data))))
  | (s1, Ok (Some v)) => (s1, FAMessage (Ok (inr v)))
  | (s1, Err e) => (s1, FAMessage (Err e))
  | (s1, Panic) => (s1, FAMessage Panic)
  end.
(** What a call does with a line, adc/reader.go:31,40,48-55,63-70 *)
Definition f_answer (c : fcall) (l : bytes) (s : fenv) : fenv * fanswer :=
  match c with
  | FPacket sp =>
      match decode_packet_raw sp l with
      | Ok p => let '(s1, x) := f_decode (mkFp p None) s in (s1, FAPacket x)
      | r => (s, f_failed c r)
      end
  | FPacketRaw sp =>
      match decode_packet_raw sp l with
      | Ok p => (s, FAPacket (Ok (mkFp p None)))
      | r => (s, f_failed c r)
      end
  | FInfo sp =>
      match decode_packet_raw sp l with
      | Ok (PInfo (ARaw name data)) => f_message name data s
      | Ok _ => (s, FAMessage (Err (EText "expected info command")))
      | r => (s, f_failed c r)
      end
  | FClient sp =>
      match decode_packet_raw sp l with
      | Ok (PClient (ARaw name data)) => f_message name data s
      | Ok _ => (s, FAMessage (Err (EText "expected client command")))
      | r => (s, f_failed c r)
      end
  | FRegister _ _ => (s, FADone true)
  end.

(** One call, adc/reader.go:26-71, adc/messages.go:26-36.  None: out of fuel. *)
Definition f_call (fuel : nat) (c : fcall) (s : fenv) (R : areader fenv Z) : option (fanswer * fenv * areader fenv Z) :=
  match c with
  | FRegister t v => let '(s1, p) := f_register t v s in Some (FADone p, s1, R)
  | _ =>
      match next_packet act fuel fuel (ar_keep R) s (ar_line R) with
      | None => None
      | Some (Ok l, s1, r1) => let '(s2, a) := f_answer c l s1 in Some (a, s2, mkAreader r1 (ar_keep R))
      | Some (x, s1, r1) => Some (f_failed c x, s1, mkAreader r1 (ar_keep R))
      end
  end.
(** Model only: calls one after the other, panics recovered (adc/reader.go:26-71) *)
Fixpoint f_calls (fuel : nat) (cs : list fcall) (s : fenv) (R : areader fenv Z) : option (list fanswer * fenv * areader fenv Z) :=
  match cs with
  | [] => Some ([], s, R)
  | c :: r =>
      match f_call fuel c s R with
      | None => None
      | Some (a, s1, R1) => match f_calls fuel r s1 R1 with None => None | Some (os, s2, R2) => Some (a :: os, s2, R2) end
      end
  end.
End Foreign.
Arguments fenv : clear implicits. Arguments fpacket : clear implicits. Arguments fcall : clear implicits. Arguments fanswer : clear implicits.
Arguments mkFp {V}. Arguments fp_packet {V}. Arguments fp_msg {V}.
Arguments FPacket {V}. Arguments FPacketRaw {V}. Arguments FInfo {V}. Arguments FClient {V}. Arguments FRegister {V}.
Arguments FAPacket {V}. Arguments FAMessage {V}. Arguments FADone {V}.

(** Unmarshal into a structure of a program, adc/messages.go:47-50, adc/marshal.go:99-159: the type has the fields [fs]
    and no UnmarshalADC method.  The values of the types are structures with their fields.  Simplification: the error is
    that of the value, without the name of the field. *)
Definition g_decode {W} (methods : nat -> gmethods) (pf : bool -> bytes -> float_result) (t : gotype (list gfield * list gval)) (d : bytes)
  (v : list gfield * list gval) (s : fenv W (list gfield * list gval)) : fenv W (list gfield * list gval) * res (list gfield * list gval) :=
  match g_unmarshal methods pf (fst v) d (snd v) with
  | (vs, EndDone) => (s, Ok (fst v, vs))
  | (_, EndField _ e) | (_, EndError e) => (s, Err e)
  | (_, EndPanic) => (s, Panic)
  end.
