(** Specification of ADC messages and packets. *)
From Verif Require Import Base AdcValue AdcMessage AdcPacket SpecAdc.

(** The number of fields without tag *)
Definition positionals (fs : list field) : nat := length (filter positional fs).

(** ** Feature maps *)

(** A feature whose text needs no escape *)
Definition plain_feature (f : bytes) : Prop := length f = 4 /\ ~ In " "%byte f /\ ~ In "\"%byte f.

(** References into a memory *)
Definition valid (h : fmaps) (f : modfeatures) : Prop := match f with None => True | Some a => a < length h end.

(** The first entry, if there is one, or the second *)
Definition over (a b : option bool) : option bool := match a with Some v => Some v | None => b end.

(** Enabled in both *)
Definition both (a b : option bool) : option bool := match a, b with Some true, Some true => Some true | _, _ => None end.

(** ** Packets *)

(** The packet carries the undecoded message of type [t] with payload [d]. *)
Definition raw (p : packet) (t d : bytes) : Prop := message p = ARaw t d.

(** Identifiers and features have four bytes, a CID has 24; there are no zero bytes. *)
Definition sid_ok (s : bytes) : Prop := length s = 4 /\ ~ In x00 s.
(** The identifiers in the header have their form. *)
Definition parts_ok (p : packet) : Prop :=
  match p with
  | PInfo _ | PHub _ | PClient _ => True
  | PBroadcast id _ => sid_ok id
  | PDirect id to _ | PEcho id to _ => sid_ok id /\ sid_ok to
  | PFeature id sel _ => sid_ok id /\ Forall (fun s => sid_ok (fst s)) sel
  | PUdp cid _ => length cid = 24
  end.

(** A payload that does not look like a feature selector or separator *)
Definition stop (c : byte) : Prop := c <> "+"%byte /\ c <> "-"%byte /\ c <> " "%byte.
(** The message of the packet can be written. *)
Definition payload_ok (p : packet) : Prop :=
  match p with
  | PFeature _ _ (ARaw _ (c :: _)) => stop c
  | _ => True
  end.

(** The session identifiers of a packet *)
Definition sids (p : packet) : list bytes :=
  match p with
  | PBroadcast id _ | PFeature id _ _ => [id]
  | PDirect id to _ | PEcho id to _ => [id; to]
  | _ => []
  end.

(** Where no escape protects the text, there is no line delimiter. *)
Definition quiet_message (m : amsg) : Prop :=
  match m with
  | AStruct t v => quiet_all (fields_of t) v
  | ASup f => Forall (fun e => ~ In x0a (fst e)) f
  | ASta _ | AZon | AZof | AGet _ | ASnd _ | AGpa _ => True
  | ASid s => ~ In x0a s
  | AMod l => Forall (fun f => ~ In x0a (fst f)) l
  | ARaw t d => ~ In x0a t /\ ~ In x0a d
  end.
(** No part of the header holds a line feed. *)
Definition quiet_parts (p : packet) : Prop :=
  match p with
  | PInfo _ | PHub _ | PClient _ => True
  | PBroadcast id _ => ~ In x0a id
  | PDirect id to _ | PEcho id to _ => ~ In x0a id /\ ~ In x0a to
  | PFeature id sel _ => ~ In x0a id /\ Forall (fun s => ~ In x0a (fst s)) sel
  | PUdp cid _ => True
  end.

(** ** Payloads that crash the decoder *)

(** [crashing ws name]: too few words for the fields without tag, or an overlong hash. *)
Inductive crashing (ws : list bytes) : bytes -> Prop :=
| cr_rcm : length ws < 2 -> crashing ws (B "RCM")
| cr_gfi : length ws < 2 -> crashing ws (B "GFI")
| cr_ctm : length ws < 3 -> crashing ws (B "CTM")
| cr_pas w r : ws = w :: r -> overlong w -> crashing ws (B "PAS")
| cr_sch w : In (B "TR" ++ w) ws -> overlong w -> crashing ws (B "SCH")
| cr_res w : In (B "TR" ++ w) ws -> overlong w -> crashing ws (B "RES").
