(** UnmarshalPacketADC of a packet in use, adc/packets.go, and packets with messages of a program.

    The packet is not nil. *)
From Verif Require Import Base Tiger LineReader LineWriter AdcText AdcValue AdcMessage AdcPacket AdcReader AdcWriter.

(** SID.UnmarshalADC into the identifier [old], adc/types/types.go:47-55 *)
Definition sid_into (old s : bytes) : res unit * bytes :=
  match sid_unmarshal s with
  | Ok id => (Ok tt, id)
  | Err e => (Err e, old)
  | Panic => (Panic, old)
  end.

(** InfoPacket, HubPacket and ClientPacket, adc/packets.go:182-192,240-252,580-592: [empty] is what happens without data *)
Definition plain_into (empty : res unit) (mk : amsg -> packet) (p : packet) (name data : bytes) : res unit * packet :=
  match data with
  | [] => (empty, p)
  | _ => if ends_line data then (Ok tt, mk (ARaw name (removelast data))) else (Err (EText "invalid packet delimiter"), p)
  end.

(** BroadcastPacket, adc/packets.go:315-334 *)
Definition broadcast_into (old : bytes) (m : amsg) (name data : bytes) : res unit * packet :=
  match id_checks 4 data with
  | Ok _ =>
      match sid_into old (firstn 4 data) with
      | (Ok _, id) => (Ok tt, PBroadcast id (ARaw name (after_id 4 data)))
      | (r, id) => (r, PBroadcast id m)
      end
  | Err e => (Err e, PBroadcast old m)
  | Panic => (Panic, PBroadcast old m)
  end.

(** DirectPacket and EchoPacket, adc/packets.go:410-434,506-530 *)
Definition direct_into (mk : bytes -> bytes -> amsg -> packet) (old old2 : bytes) (m : amsg) (name data : bytes) : res unit * packet :=
  if (length data <? 9)%nat then (Err (EText "short command"), mk old old2 m)
  else if negb (ends_line data) then (Err (EText "invalid packet delimiter"), mk old old2 m)
  else if negb (beq (at_ data 4) " ") then (Err (EText "separator expected"), mk old old2 m)
  else if ((9 <? length data)%nat && negb (beq (at_ data 9) " ") && negb (beq (at_ data 9) x0a))%bool
  then (Err (EText "separator expected"), mk old old2 m)
  else
    match sid_into old (firstn 4 data) with
    | (Ok _, id) =>
        match sid_into old2 (firstn 4 (skipn 5 data)) with
        | (Ok _, to) => (Ok tt, mk id to (ARaw name (after_id 9 data)))
        | (r, to) => (r, mk id to m)
        end
    | (r, id) => (r, mk id old2 m)
    end.

(** The loop of FeaturePacket.UnmarshalPacketADC, adc/packets.go:692-720, as sel_loop in AdcPacket.v, with p.Sel when it stops *)
Fixpoint sel_into (fuel spare : nat) (rest : bytes) (sel : list feature_sel) : res bytes * list feature_sel :=
  match fuel with
  | O => (Ok [], sel)
  | S fuel =>
      match rest with
      | [] => (Ok [], sel)
      | c :: t =>
          if (beq c "+" || beq c "-")%bool then
            if (length rest <? 5)%nat then
              (if (length rest + spare <? 5)%nat then Panic else Err (EText "short feature"), sel)
            else sel_into fuel spare (skipn 5 rest) (sel ++ [(firstn 4 t, beq c "+")])
          else if beq c " " then sel_into fuel spare t sel
          else (Ok rest, sel)
      end
  end.
(** FeaturePacket, adc/packets.go:675-726: ID is set in line 684, Sel from line 692 on, Msg in line 724. *)
Definition feature_into (spare : nat) (old : bytes) (sel : list feature_sel) (m : amsg) (name data : bytes) : res unit * packet :=
  match id_checks 4 data with
  | Ok _ =>
      match sid_into old (firstn 4 data) with
      | (Ok _, id) =>
          match sel_into (S (length data)) (S spare) (after_id 4 data) [] with
          | (Ok d, s) => (Ok tt, PFeature id s (ARaw name d))
          | (Err e, s) => (Err e, PFeature id s m)
          | (Panic, s) => (Panic, PFeature id s m)
          end
      | (r, id) => (r, PFeature id sel m)
      end
  | Err e => (Err e, PFeature old sel m)
  | Panic => (Panic, PFeature old sel m)
  end.

(** UDPPacket, adc/packets.go:780-800 *)
Definition udp_into (old : bytes) (m : amsg) (name data : bytes) : res unit * packet :=
  match id_checks 39 data with
  | Ok _ =>
      match cid_from_base32 old (firstn 39 data) with
      | (Ok _, id) => (Ok tt, PUdp id (ARaw name (after_id 39 data)))
      | (Err e, id) => (Err (EText "wrong CID in upd command"), PUdp id m)
      | (Panic, id) => (Panic, PUdp id m)
      end
  | Err e => (Err e, PUdp old m)
  | Panic => (Panic, PUdp old m)
  end.

(** p.UnmarshalPacketADC(name, data), the methods of adc/packets.go: what it returns and the packet afterwards.  [spare] is
    the capacity behind data. *)
Definition unmarshal_into (spare : nat) (p : packet) (name data : bytes) : res unit * packet :=
  match p with
  | PInfo _ => plain_into Panic PInfo p name data
  | PHub _ => plain_into (Err (EText "short command")) PHub p name data
  | PClient _ => plain_into (Err (EText "short command")) PClient p name data
  | PBroadcast id m => broadcast_into id m name data
  | PDirect id to m => direct_into PDirect id to m name data
  | PEcho id to m => direct_into PEcho id to m name data
  | PFeature id sel m => feature_into spare id sel m name data
  | PUdp cid m => udp_into cid m name data
  end.

(** ** Messages of a program *)

(** How Marshal(buf, m) ends, adc/marshal.go:209-272 *)
Inductive mend := MDone | MFail (e : error) | MPanic.
(** A message of a program: Cmd, and Marshal(buf, m) from the contents of the buffer to its contents afterwards, adc/messages.go:22-24,
    adc/marshal.go:209-272 *)
Record custom := mkCustom { c_cmd : bytes; c_marshal : bytes -> bytes * mend }.
(** The messages of the package as such, adc/marshal.go:209-272; they append to the buffer and do not fail. *)
Definition as_custom (m : amsg) : custom := mkCustom (cmd m) (fun b => (b ++ marshal m, MDone)).

(** [buf.Bytes()[i-1] = lineDelim], e.g. adc/packets.go:175 *)
Definition put_delim (i : nat) (b : bytes) : bytes := firstn (i - 1) b ++ x0a :: skipn i b.
(** MarshalPacketADC(buf) of the packet [p] with the message [c] in the place of its own, adc/packets.go:158-180,216-238,288-313,
    376-408,472-504,556-578,634-673,753-778: the contents of the buffer *)
Definition marshal_packet_with (p : packet) (c : custom) (buf : bytes) : bytes * mend :=
  let b := buf ++ kind_of p :: c_cmd c ++ header p in
  match c_marshal c b with
  | (b', MDone) => if (length b =? length b')%nat then (put_delim (length b) b', MDone) else (b' ++ [x0a], MDone)
  | (b', r) => (b', r)
  end.
(** MustMarshal, adc/marshal.go:275-282 *)
Definition must_marshal (c : custom) : res bytes :=
  match c_marshal c [] with (b, MDone) => Ok b | _ => Panic end.

Section Writer.
Context {W dst : Type} (dstep : dst -> dop -> dst * list bytes).

(** What a call gives the program, adc/writer.go:43-50: an error value, or the panic of a message *)
Inductive outcome := OReturn (e : option error) | OPanic.
(** WritePacket, adc/writer.go:43-50, and the methods and streams that call it *)
Definition write_packet_with (p : packet) (c : custom) (s : W) (x : awriter W dst) : wout (outcome * W * awriter W dst) :=
  match marshal_packet_with p c [] with
  | (b, MDone) =>
      match aw_write_line dstep s b (mkAwriter (aw_line x) b) with
      | WRet (e, s', x') => WRet (OReturn e, s', x')
      | WPan => WPan
      | WStuck => WStuck
      end
  | (b, MFail e) => WRet (OReturn (Some e), s, mkAwriter (aw_line x) b)
  | (b, MPanic) => WRet (OPanic, s, mkAwriter (aw_line x) b)
  end.
(** The calls of a program, adc/writer.go:39-55 *)
Inductive wcall := CPacket (p : packet) (c : custom) | CKeepAlive | CFlush.
(** Model only: one call, adc/writer.go:39-55 *)
Definition call (o : wcall) (s : W) (x : awriter W dst) : wout (outcome * W * awriter W dst) :=
  let ret (r : wout (option error * W * awriter W dst)) :=
    match r with WRet (e, s', x') => WRet (OReturn e, s', x') | WPan => WPan | WStuck => WStuck end in
  match o with
  | CPacket p c => write_packet_with p c s x
  | CKeepAlive => ret (write_keep_alive dstep s x)
  | CFlush => ret (aw_flush dstep s x)
  end.
(** Model only: the calls of a program, which recovers from the panics of its messages, adc/writer.go:39-55 *)
Fixpoint calls (os : list wcall) (s : W) (x : awriter W dst) : wout (list outcome * W * awriter W dst) :=
  match os with
  | [] => WRet ([], s, x)
  | o :: r =>
      match call o s x with
      | WRet (e, s1, x1) =>
          match calls r s1 x1 with
          | WRet (es, s2, x2) => WRet (e :: es, s2, x2)
          | WPan => WPan
          | WStuck => WStuck
          end
      | WPan => WPan
      | WStuck => WStuck
      end
  end.
End Writer.
