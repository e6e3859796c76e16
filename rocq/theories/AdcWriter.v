(** adc/writer.go: the ADC packet writer on top of the line writer (LineWriter.v).
    MarshalPacketADC of the packets of AdcPacket.v does not fail. *)
From Verif Require Import Base LineReader LineWriter AdcValue AdcMessage AdcPacket AdcReader.

Section AdcWriter.
Variables (W dst : Type) (dstep : dst -> dop -> dst * list bytes).

(** Writer, adc/writer.go:30-34; [aw_mbuf]: contents of mbuf *)
Record awriter := mkAwriter { aw_line : writer W dst; aw_mbuf : bytes }.
(** NewWriterSize, adc/writer.go:16-20; NewWriter (11-13) has size 0 *)
Definition new_awriter (script : list wresp) (size : nat) : awriter := mkAwriter (new_writer script size) [].

(** w.WriteLine, promoted from the embedded writer, adc/writer.go:40,49 *)
Definition aw_write_line (s : W) (data : bytes) (x : awriter) : wout (option error * W * awriter) :=
  match write_line dstep s data (aw_line x) with
  | WRet (e, s', w') => WRet (e, s', mkAwriter w' (aw_mbuf x))
  | WPan => WPan
  | WStuck => WStuck
  end.

(** WriteKeepAlive, adc/writer.go:39-41 *)
Definition write_keep_alive (s : W) (x : awriter) : wout (option error * W * awriter) := aw_write_line s [line_delim] x.

(** WritePacket, adc/writer.go:43-50: mbuf.Reset() empties the buffer, MarshalPacketADC appends. *)
Definition write_packet (p : packet) (s : W) (x : awriter) : wout (option error * W * awriter) :=
  let reset := [] in
  let b := reset ++ marshal_packet p in
  aw_write_line s b (mkAwriter (aw_line x) b).

(** Flush, adc/writer.go:53-55 *)
Definition aw_flush (s : W) (x : awriter) : wout (option error * W * awriter) :=
  match flush dstep (aw_line x) with
  | WRet (e, w') => WRet (e, s, mkAwriter w' (aw_mbuf x))
  | WPan => WPan
  | WStuck => WStuck
  end.

(** WriteInfo, WriteHub, WriteClient, WriteBroadcast, WriteDirect, WriteEcho, WriteFeature: adc/writer.go:58-108 *)
Definition write_info (m : amsg) := write_packet (PInfo m).
(** WriteHub, adc/writer.go:65-69 *)
Definition write_hub (m : amsg) := write_packet (PHub m).
(** WriteClient, adc/writer.go:72-76 *)
Definition write_client (m : amsg) := write_packet (PClient m).
(** WriteBroadcast, adc/writer.go:79-84 *)
Definition write_broadcast (id : bytes) (m : amsg) := write_packet (PBroadcast id m).
(** WriteDirect, adc/writer.go:87-92 *)
Definition write_direct (from to : bytes) (m : amsg) := write_packet (PDirect from to m).
(** WriteEcho, adc/writer.go:95-100 *)
Definition write_echo (from to : bytes) (m : amsg) := write_packet (PEcho from to m).
(** WriteFeature, adc/writer.go:103-108 *)
Definition write_feature (from : bytes) (sel : list feature_sel) (m : amsg) := write_packet (PFeature from sel m).

(** The streams, adc/writer.go:111-143,145-226 *)
Inductive stream :=
| SHub | SInfo | SClient | SBroadcast (from : bytes) | SDirect (from to : bytes) | SEcho (from to : bytes)
| SFeature (from : bytes) (sel : list feature_sel).
(** WriteMessage of the streams, adc/writer.go:149,161,173,186,200,214,228 *)
Definition stream_message (st : stream) (m : amsg) : W -> awriter -> wout (option error * W * awriter) :=
  match st with
  | SHub => write_hub m
  | SInfo => write_info m
  | SClient => write_client m
  | SBroadcast from => write_broadcast from m
  | SDirect from to => write_direct from to m
  | SEcho from to => write_echo from to m
  | SFeature from sel => write_feature from sel m
  end.
(** Flush of the streams, adc/writer.go:153,165,177,190,204,218,232 *)
Definition stream_flush (st : stream) : W -> awriter -> wout (option error * W * awriter) := aw_flush.
End AdcWriter.

Arguments mkAwriter {W dst}. Arguments aw_line {W dst}. Arguments aw_mbuf {W dst}. Arguments new_awriter {W dst}.
Arguments aw_write_line {W dst}. Arguments write_keep_alive {W dst}. Arguments write_packet {W dst}. Arguments aw_flush {W dst}.
Arguments write_info {W dst}. Arguments write_hub {W dst}. Arguments write_client {W dst}. Arguments write_broadcast {W dst}.
Arguments write_direct {W dst}. Arguments write_echo {W dst}. Arguments write_feature {W dst}.
Arguments stream_message {W dst}. Arguments stream_flush {W dst}.
