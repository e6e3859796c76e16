(** The accessors of packets, adc/packets.go: interfaces PeerPacket (adc/packets.go:36-39) and TargetPacket (adc/packets.go:41-44); Kind, Message and SetMessage
    are in AdcPacket.v. *)
From Verif Require Import Base AdcMessage AdcPacket.

(** Source, adc/packets.go:268-270,352-354,448-450,614-616; None if the packet is not a PeerPacket *)
Definition source (p : packet) : option bytes :=
  match p with
  | PBroadcast id _ | PDirect id _ _ | PEcho id _ _ | PFeature id _ _ => Some id
  | _ => None
  end.
(** Target, adc/packets.go:356-358,452-454; None if the packet is not a TargetPacket *)
Definition target (p : packet) : option bytes :=
  match p with
  | PDirect _ to _ | PEcho _ to _ => Some to
  | _ => None
  end.

(** hex.EncodeToString, called in tiger/tiger.go:67: the digits of a byte *)
Definition hex_digit (n : N) : byte := if (n <? 10)%N then n2b (48 + n) else n2b (87 + n).
(** Hash.Hex, tiger/tiger.go:66-68 *)
Definition hash_hex (h : bytes) : bytes := flat_map (fun b => [hex_digit (b2n b / 16); hex_digit (b2n b mod 16)]) h.
(** Hash.IsZero and CID.IsZero, tiger/tiger.go:57, adc/types/types.go:87-89; comparison of arrays *)
Definition hash_is_zero (h : bytes) : bool := bytes_eqb h (repeat x00 24).
(** MustParseCID and MustParseCIDP, adc/types/types.go:58-69 *)
Definition must_parse_cid (s : bytes) : res bytes :=
  match Tiger.cid_from_base32 (repeat x00 24) s with (Ok _, c) => Ok c | _ => Panic end.
