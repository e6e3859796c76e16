(** Specification of encoding ADC messages and packets: the text of every value.  In contrast to SpecAdc.v
    nothing is said about whether it can be read back. *)
From Coq Require Import Decimal DecimalString.
From Verif Require Import Base SpecText SpecHash AdcValue AdcMessage AdcPacket SpecAdc.

(** A number without superfluous digits. *)
Definition number_text (z : Z) : bytes := B (NilZero.string_of_int (Z.to_int z)).
(** At least two characters. *)
Definition two_digits (z : Z) : bytes := (if (0 <=? z)%Z && (z <? 10)%Z then B "0" else []) ++ number_text z.
(** Base32 without padding: the bits which are missing in the last symbol are zero. *)
Definition base32_of (b t : bytes) : Prop :=
  exists r, length r < 5 /\ Forall (eq false) r /\ spells t (flat_map bits8 b ++ r).

(** [value_text k v t]: [t] is written for the value [v]. *)
Fixpoint value_text (k : kind) : val k -> bytes -> Prop :=
  match k with
  | KStr => escaped
  | KInt => fun v t => t = number_text v
  | KBool => fun v t => t = if v then B "1" else B "0"
  | KSid => fun v t => t = v
  | KCid | KTth => base32_of
  | KFeas => fun v t => t = join (B ",") v
  | KPath => fun v t => exists es, Forall2 escaped v es /\ t = join (B "/") es
  | KStrs => fun _ _ => False
  | KPtr k' => fun v t => match v with Some x => value_text k' x t | None => False end
  end.
(** The words of one field: none if it is omitted, one for each element of a list of strings, and one otherwise. *)
Definition field_text (f : field) (v : val (f_kind f)) (l : list bytes) : Prop :=
  omitted f v /\ l = [] \/
  ~ omitted f v /\
  match f_kind f as k return val k -> Prop with
  | KStrs => fun v => exists es, Forall2 escaped v es /\ l = map (word f) es
  | k => fun v => exists t, value_text k v t /\ l = [word f t]
  end v.
(** The words of all fields in the order of the table. *)
Fixpoint fields_text (fs : list field) : vals fs -> list bytes -> Prop :=
  match fs with
  | [] => fun _ l => l = []
  | f :: r => fun v l => exists l1 l2, field_text f (fst v) l1 /\ fields_text r (snd v) l2 /\ l = l1 ++ l2
  end.

(** [message_text m d]: the payload of a message.  Features and additional fields follow the order in which they
    are listed. *)
Inductive message_text : amsg -> bytes -> Prop :=
| mt_struct t v l : fields_text (fields_of t) v l -> message_text (AStruct t v) (join (B " ") l)
| mt_sup f : message_text (ASup f) (join (B " ") (map (fun e : bytes * bool => (if snd e then B "AD" else B "RM") ++ fst e) f))
| mt_sta sev code msg e : escaped msg e ->
    message_text (ASta {| st_sev := sev; st_code := code; st_msg := msg |}) (number_text sev ++ two_digits code ++ B " " ++ e)
| mt_zon : message_text AZon []
| mt_zof : message_text AZof []
| mt_sid s : message_text (ASid s) s
| mt_gpa s t : base32_of s t -> message_text (AGpa s) t
| mt_get typ path s n z et ep : escaped typ et -> escaped path ep ->
    message_text (AGet {| g_type := typ; g_path := path; g_start := s; g_bytes := n; g_comp := z |})
      (join (B " ") ([et; ep; number_text s; number_text n] ++ if z : bool then [B "ZL1"] else []))
| mt_snd typ path s n z et ep : escaped typ et -> escaped path ep ->
    message_text (ASnd {| g_type := typ; g_path := path; g_start := s; g_bytes := n; g_comp := z |})
      (join (B " ") ([et; ep; number_text s; number_text n] ++ if z : bool then [B "ZL1"] else []))
| mt_mod l ws : Forall2 (fun f w => exists e, escaped (snd f) e /\ w = fst f ++ e) l ws -> message_text (AMod l) (join (B " ") ws)
| mt_raw t d : message_text (ARaw t d) d.

(** The words between the type of a message and its payload. *)
Definition header_text (p : packet) (ws : list bytes) : Prop :=
  match p with
  | PInfo _ | PHub _ | PClient _ => ws = []
  | PBroadcast id _ => ws = [id]
  | PDirect id to _ | PEcho id to _ => ws = [id; to]
  | PFeature id sel _ => ws = id :: map (fun s : bytes * bool => (if snd s then B "+" else B "-") ++ fst s) sel
  | PUdp cid _ => exists t, base32_of cid t /\ ws = [t]
  end.
(** The letter of the packet. *)
Definition letter (p : packet) : byte :=
  match p with
  | PBroadcast _ _ => "B" | PClient _ => "C" | PDirect _ _ _ => "D" | PEcho _ _ _ => "E"
  | PFeature _ _ _ => "F" | PHub _ => "H" | PInfo _ => "I" | PUdp _ _ => "U"
  end.
(** The type of a message; user and hub information share theirs. *)
Definition code_of (m : amsg) : bytes :=
  match m with
  | AStruct t _ =>
      match t with
      | TChat => B "MSG" | TRcm => B "RCM" | TCtm => B "CTM" | TGfi => B "GFI" | TCmd => B "CMD" | TPas => B "PAS"
      | TQui => B "QUI" | TSch => B "SCH" | TRes => B "RES" | TInf => B "INF" | THub => B "INF"
      end
  | ASup _ => B "SUP" | ASta _ => B "STA" | AZon => B "ZON" | AZof => B "ZOF" | ASid _ => B "SID" | AGpa _ => B "GPA"
  | AGet _ => B "GET" | ASnd _ => B "SND" | AMod _ => B "INF" | ARaw t _ => t
  end.
(** [packet_text p l]: the line of a packet: letter and type, the words of the header and the payload unless it is
    empty, with single spaces between them. *)
Definition packet_text (p : packet) (l : bytes) : Prop :=
  exists ws d, header_text p ws /\ message_text (message p) d /\
    l = letter p :: join (B " ") (code_of (message p) :: ws ++ match d with [] => [] | _ => [d] end) ++ [x0a].
