(** adc/packets.go: packets, their headers and DecodePacket.

    The message of a packet is not nil.  A nil and an empty RawMessage.Data or Sel are the same. *)
From Verif Require Import Base Num Tiger AdcText AdcValue AdcMessage.

(** FeatureSel, adc/packets.go:599-602: feature and whether it must be present *)
Notation feature_sel := (bytes * bool)%type.

(** The packet types: adc/packets.go:134-136,194,259-262,342-346,442,532-534,604-608,728-731 *)
Inductive packet :=
| PInfo (m : amsg)
| PHub (m : amsg)
| PBroadcast (id : bytes) (m : amsg)
| PDirect (id to : bytes) (m : amsg)
| PEcho (id to : bytes) (m : amsg)
| PClient (m : amsg)
| PFeature (id : bytes) (sel : list feature_sel) (m : amsg)
| PUdp (cid : bytes) (m : amsg).

(** Kind: adc/packets.go:11-20 and the Kind methods *)
Definition kind_of (p : packet) : byte :=
  match p with
  | PInfo _ => "I" | PHub _ => "H" | PBroadcast _ _ => "B" | PDirect _ _ _ => "D" | PEcho _ _ _ => "E"
  | PClient _ => "C" | PFeature _ _ _ => "F" | PUdp _ _ => "U"
  end.

(** Message and SetMessage, for example adc/packets.go:142-148 *)
Definition message (p : packet) : amsg :=
  match p with
  | PInfo m | PHub m | PBroadcast _ m | PDirect _ _ m | PEcho _ _ m | PClient m | PFeature _ _ m | PUdp _ m => m
  end.
(** SetMessage, for example adc/packets.go:146-148 *)
Definition set_message (m : amsg) (p : packet) : packet :=
  match p with
  | PInfo _ => PInfo m | PHub _ => PHub m | PBroadcast i _ => PBroadcast i m | PDirect i t _ => PDirect i t m
  | PEcho i t _ => PEcho i t m | PClient _ => PClient m | PFeature i s _ => PFeature i s m | PUdp c _ => PUdp c m
  end.

(** ** Encoding *)

(** What follows kind and message type, up to and including the space before the payload:
    adc/packets.go:160-167 (info; hub 218-225, client 558-565), 290-300 (broadcast),
    378-395 (direct; echo 474-491), 636-660 (feature), 755-765 (UDP) *)
Definition selector (s : feature_sel) : bytes := (if snd s then "+"%byte else "-"%byte) :: fst s ++ B " ".
(** The header of each packet, adc/packets.go:160-167,290-300,378-395,636-660,755-765 *)
Definition header (p : packet) : bytes :=
  match p with
  | PInfo _ | PHub _ | PClient _ => B " "
  | PBroadcast id _ => B " " ++ id ++ B " "
  | PDirect id to _ | PEcho id to _ => B " " ++ id ++ B " " ++ to ++ B " "
  | PFeature id sel _ => B " " ++ id ++ B " " ++ flat_map selector sel
  | PUdp cid _ => B " " ++ hash_base32 cid ++ B " "
  end.
(** MarshalPacketADC of all packets, adc/packets.go:158-180,216-238,288-313,376-408,472-504,556-578,
    634-673,753-778: the bytes appended to the buffer; without payload the last space becomes the
    line delimiter. *)
Definition marshal_packet (p : packet) : bytes :=
  let b := kind_of p :: cmd (message p) ++ header p in
  match marshal (message p) with
  | [] => removelast b ++ [x0a]
  | d => b ++ d ++ [x0a]
  end.

(** ** Decoding *)

(** [data[len(data)-1] != lineDelim], for example adc/packets.go:183 *)
Definition ends_line (data : bytes) : bool :=
  match data with [] => false | _ => beq (last data x00) x0a end.
(** data[i], the index being in range (data[i], e.g. adc/packets.go:320,415). *)
Definition at_ (data : bytes) (i : nat) : byte := nth i data x00.

(** InfoPacket.UnmarshalPacketADC, adc/packets.go:182-192; [data[:len(data)-1]] panics on empty data. *)
Definition info_unmarshal (name data : bytes) : res packet :=
  match data with
  | [] => Panic
  | _ => if ends_line data then Ok (PInfo (ARaw name (removelast data))) else Err (EText "invalid packet delimiter")
  end.
(** HubPacket and ClientPacket: adc/packets.go:240-252,580-592 *)
Definition plain_unmarshal (mk : amsg -> packet) (name data : bytes) : res packet :=
  match data with
  | [] => Err (EText "short command")
  | _ => if ends_line data then Ok (mk (ARaw name (removelast data))) else Err (EText "invalid packet delimiter")
  end.

(** The checks of a packet with one identifier of [l] bytes: adc/packets.go:316-322 (broadcast),
    676-682 (feature), 781-788 (UDP) *)
Definition id_checks (l : nat) (data : bytes) : res unit :=
  if (length data <? l)%nat then Err (EText "short command")
  else if negb (ends_line data) then Err (EText "invalid packet delimiter")
  else if ((l <? length data)%nat && negb (beq (at_ data l) " ") && negb (beq (at_ data l) x0a))%bool
  then Err (EText "separator expected")
  else Ok tt.
(** [data = data[l+1:]] or nil after the last byte is removed: adc/packets.go:323,327-331 *)
Definition after_id (l : nat) (data : bytes) : bytes := skipn (S l) (removelast data).

(** BroadcastPacket.UnmarshalPacketADC, adc/packets.go:315-334.  Line 324 takes [data[0:4]] after line
    323 has removed the delimiter: when three bytes are left the slice reaches into the capacity,
    where the delimiter still is. *)
Definition broadcast_unmarshal (name data : bytes) : res packet :=
  do! id_checks 4 data;
  do id <- sid_unmarshal (firstn 4 data);
  Ok (PBroadcast id (ARaw name (after_id 4 data))).

(** DirectPacket and EchoPacket: adc/packets.go:410-434,506-530; [data[5:9]] as above *)
Definition direct_unmarshal (mk : bytes -> bytes -> amsg -> packet) (name data : bytes) : res packet :=
  if (length data <? 9)%nat then Err (EText "short command")
  else if negb (ends_line data) then Err (EText "invalid packet delimiter")
  else if negb (beq (at_ data 4) " ") then Err (EText "separator expected")
  else if ((9 <? length data)%nat && negb (beq (at_ data 9) " ") && negb (beq (at_ data 9) x0a))%bool
  then Err (EText "separator expected")
  else
    do id <- sid_unmarshal (firstn 4 data);
    do to <- sid_unmarshal (firstn 4 (skipn 5 data));
    Ok (mk id to (ARaw name (after_id 9 data))).

(** The loop of FeaturePacket.UnmarshalPacketADC, adc/packets.go:693-720, on the rest [data[i:]];
    [spare] is the capacity behind data.  The error message of a short selector slices
    [data[i:i+5]], which panics when the capacity ends before.  Reaching the end leaves no payload. *)
Fixpoint sel_loop (fuel spare : nat) (rest : bytes) (sel : list feature_sel) : res (list feature_sel * bytes) :=
  match fuel with
  | O => Ok (sel, [])
  | S fuel =>
      match rest with
      | [] => Ok (sel, [])
      | c :: t =>
          if (beq c "+" || beq c "-")%bool then
            if (length rest <? 5)%nat then
              if (length rest + spare <? 5)%nat then Panic else Err (EText "short feature")
            else sel_loop fuel spare (skipn 5 rest) (sel ++ [(firstn 4 t, beq c "+")])
          else if beq c " " then sel_loop fuel spare t sel
          else Ok (sel, rest)
      end
  end.
(** FeaturePacket.UnmarshalPacketADC, adc/packets.go:675-726; the byte removed in line 683 adds to the
    capacity behind data. *)
Definition feature_packet_unmarshal (spare : nat) (name data : bytes) : res packet :=
  do! id_checks 4 data;
  do id <- sid_unmarshal (firstn 4 data);
  do (sel, d) <- sel_loop (S (length data)) (S spare) (after_id 4 data) [];
  Ok (PFeature id sel (ARaw name d)).

(** UDPPacket.UnmarshalPacketADC, adc/packets.go:780-800 *)
Definition udp_unmarshal (name data : bytes) : res packet :=
  do! id_checks 39 data;
  do id <- of_hash (cid_from_base32 (repeat x00 hash_size) (firstn 39 data));
  Ok (PUdp id (ARaw name (after_id 39 data))).

(** The packet for a kind byte and its UnmarshalPacketADC: adc/packets.go:97-116,128 *)
Definition unmarshal_packet (spare : nat) (kind : byte) (name data : bytes) : res packet :=
  if beq kind "I" then info_unmarshal name data
  else if beq kind "H" then plain_unmarshal PHub name data
  else if beq kind "E" then direct_unmarshal PEcho name data
  else if beq kind "D" then direct_unmarshal PDirect name data
  else if beq kind "B" then broadcast_unmarshal name data
  else if beq kind "F" then feature_packet_unmarshal spare name data
  else if beq kind "C" then plain_unmarshal PClient name data
  else if beq kind "U" then udp_unmarshal name data
  else Err (EText "unknown command kind").
(** The kinds of adc/packets.go:97-116 *)
Definition known_kind (kind : byte) : bool := existsb (beq kind) (B "IHEDBFCU").

(** DecodePacketRaw, adc/packets.go:88-132; [spare] is the capacity behind p *)
Definition decode_packet_raw (spare : nat) (p : bytes) : res packet :=
  if (length p <? 5)%nat then Err (EText "too short for command")
  else if contains_byte x00 p then Err (EText "messages should not contain null characters")
  else if negb (known_kind (at_ p 0)) then Err (EText "unknown command kind")
  else
    let name := firstn 3 (tl p) in
    let d := skipn 4 p in
    if negb (ends_line d) then Err (EText "expected line delimiter")
    else if beq (at_ d 0) " " then unmarshal_packet spare (at_ p 0) name (tl d)
    else if negb (beq (at_ d 0) x0a) then Err (EText "expected name delimiter")
    else unmarshal_packet spare (at_ p 0) name d.

Section Decode.

Variable parse_float : bytes -> float_result.

(** decodeMessage, adc/packets.go:46-62, and the DecodeMessage methods (for example 150-152) *)
Definition decode_message (p : packet) : res packet :=
  match message p with
  | ARaw t d => do m <- unmarshal_message parse_float t d; Ok (set_message m p)
  | _ => Ok p
  end.

(** decodeMessageTo, adc/packets.go:64-72, and the DecodeMessageTo methods (for example 154-156) *)
Definition decode_message_to (p : packet) (m : amsg) : res amsg :=
  match message p with
  | ARaw t d => if bytes_eqb (cmd m) t then unmarshal parse_float d m else Err (EText "unexpected message type")
  | _ => Err (EText "expected raw message")
  end.

(** DecodePacket, adc/packets.go:75-84 *)
Definition decode_packet (spare : nat) (p : bytes) : res packet :=
  do m <- decode_packet_raw spare p; decode_message m.

End Decode.
