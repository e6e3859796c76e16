(** Specification of decoding ADC messages: which payloads are accepted and what they mean. *)
From Verif Require Import Base SpecText SpecHash AdcValue AdcMessage AdcPacket SpecAdc SpecAdcMessage.

(** ** Field tables

    The fields of the messages as the protocol lists them: those known by their place, and the named
    ones, some of which are written even when zero. *)
Definition at_place (n : string) (k : kind) : field := {| f_name := n; f_tag := B "#"; f_req := false; f_kind := k |}.
(** A field with a two-letter name, omitted when zero. *)
Definition named (t n : string) (k : kind) : field := {| f_name := n; f_tag := B t; f_req := false; f_kind := k |}.
(** A field with a two-letter name, always written. *)
Definition always (t n : string) (k : kind) : field := {| f_name := n; f_tag := B t; f_req := true; f_kind := k |}.
Arguments at_place n%string k.
Arguments named (t n)%string k.
Arguments always (t n)%string k.
(** The field tables as the Go struct tags give them. *)
Definition layout (t : stype) : list field :=
  match t with
  | TChat =>
    [at_place "Text" KStr; named "PM" "PM" (KPtr KSid); named "ME" "Me" KBool; named "TS" "TS" KInt]
  | TRcm =>
    [at_place "Proto" KStr; at_place "Token" KStr]
  | TCtm =>
    [at_place "Proto" KStr; at_place "Port" KInt; at_place "Token" KStr]
  | TGfi =>
    [at_place "Type" KStr; at_place "Path" KStr]
  | TCmd =>
    [at_place "Path" KPath; named "TT" "Command" KStr; named "CT" "Category" KInt; named "RM" "Remove" KInt;
     named "CO" "Constrained" KInt; named "SP" "Separator" KInt]
  | TPas =>
    [at_place "Hash" KTth]
  | TQui =>
    [at_place "ID" KSid; named "MS" "Message" KStr; named "ID" "By" KSid; named "TL" "Duration" KInt;
     named "RD" "Redirect" KStr]
  | TSch =>
    [named "TO" "Token" KStr; named "AN" "And" KStrs; named "NO" "Not" KStrs; named "EX" "Ext" KStrs;
     named "LE" "Le" KInt; named "GE" "Ge" KInt; named "EQ" "Eq" KInt; named "TY" "Type" KInt;
     named "TR" "TTH" (KPtr KTth); named "GR" "Group" KInt; named "RX" "NoExt" KStrs]
  | TRes =>
    [named "TO" "Token" KStr; named "FN" "Path" KStr; named "SI" "Size" KInt; named "SL" "Slots" KInt;
     named "TR" "TTH" (KPtr KTth)]
  | TInf =>
    [named "ID" "Id" KCid; named "PD" "Pid" (KPtr KCid); always "NI" "Name" KStr; named "I4" "Ip4" KStr;
     named "I6" "Ip6" KStr; named "U4" "Udp4" KInt; named "U6" "Udp6" KInt; always "SS" "ShareSize" KInt;
     always "SF" "ShareFiles" KInt; always "VE" "Version" KStr; named "AP" "Application" KStr;
     named "US" "MaxUpload" KStr; named "DS" "MaxDownload" KStr; always "SL" "Slots" KInt;
     always "FS" "SlotsFree" KInt; named "AS" "AutoSlotLimit" KInt; named "EM" "Email" KStr;
     named "DE" "Desc" KStr; always "HN" "HubsNormal" KInt; always "HR" "HubsRegistered" KInt;
     always "HO" "HubsOperator" KInt; named "TO" "Token" KStr; named "CT" "Type" KInt;
     named "AW" "Away" KInt; named "RF" "Ref" KStr; always "SU" "Features" KFeas; named "KP" "KP" KStr;
     named "EA" "Address" KStr]
  | THub =>
    [always "NI" "Name" KStr; always "VE" "Version" KStr; named "AP" "Application" KStr;
     named "DE" "Desc" KStr; named "CT" "Type" KInt; named "HH" "Address" KStr; named "WS" "Website" KStr;
     named "NE" "Network" KStr; named "OW" "Owner" KStr; named "UC" "Users" KInt; named "SS" "Share" KInt;
     named "SF" "Files" KInt; named "MS" "MinShare" KInt; named "XS" "MaxShare" KInt;
     named "ML" "MinSlots" KInt; named "XL" "MaxSlots" KInt; named "MC" "UsersLimit" KInt;
     named "UP" "Uptime" KInt; named "XU" "MaxHubsUser" KInt; named "XR" "MaxHubsReg" KInt;
     named "XO" "MaxHubsOp" KInt]
  end.

(** ** Values *)

(** [x] consists of the parts [l], with [c] between them. *)
Definition parts (c : byte) (x : bytes) (l : list bytes) : Prop :=
  l <> [] /\ Forall (fun w => ~ In c w) l /\ x = join [c] l.

(** A hash or CID: line breaks are ignored, unused bits may be set, and an end marked by the byte
    0xFF is not looked at. *)
Definition hash_text_read (x h : bytes) : Prop :=
  length h = 24 /\ exists t tail r, unbroken x = t ++ tail /\ length t = 39 /\ length r = 3 /\
    spells t (flat_map bits8 h ++ r) /\ (tail = [] \/ exists y, tail = xff :: y /\ length y <= 7).

Section Read.
Variable pf : bytes -> float_result.

(** [value_read k x old v]: a field that holds [old] holds [v] after the text [x] has been read. *)
Fixpoint value_read (k : kind) (x : bytes) : val k -> val k -> Prop :=
  match k with
  | KStr => fun _ v => denotes_text x v
  | KInt => fun old v => number pf x old v
  | KBool => fun _ v => x = [] /\ v = false \/ exists c, x = [c] /\ (v = true <-> c <> x00)
  | KSid => fun _ v => v = x /\ length x = 4
  | KCid | KTth => fun _ v => hash_text_read x v
  | KFeas => fun old v => x = [] /\ v = old \/ x <> [] /\ parts "," x v /\ Forall (fun f => length f = 4) v
  | KPath => fun old v => exists es l, parts "/" x es /\ Forall2 denotes_text es l /\ v = old ++ l
  | KStrs => fun _ v => x = [] /\ v = []
  | KPtr k' => fun _ v => x = [] /\ v = None \/ x <> [] /\ exists y, v = Some y /\ value_read k' x (zero k') y
  end.

(** The texts [vs] that follow the name of a field: without any, the field is not touched; a list gets
    all of them; identifiers, hashes, features and paths take the first; others must be unique. *)
Definition named_read (k : kind) (vs : list bytes) (old v : val k) : Prop :=
  match vs with
  | [] => v = old
  | x :: more =>
      match k as k0 return val k0 -> val k0 -> Prop with
      | KStrs => fun _ v => Forall2 denotes_text vs v
      | KSid => value_read KSid x | KCid => value_read KCid x | KTth => value_read KTth x
      | KFeas => value_read KFeas x | KPath => value_read KPath x
      | k0 => fun old v => more = [] /\ value_read k0 x old v
      end old v
  end.

(** Reading the words of a payload into a structure: each field without name takes the next word, the
    named ones look at what is left. *)
Fixpoint fields_read (fs : list field) (ws : list bytes) : vals fs -> vals fs -> Prop :=
  match fs with
  | [] => fun _ _ => True
  | f :: r => fun old v =>
      (f_tag f = B "#" /\ exists w ws', ws = w :: ws' /\ value_read (f_kind f) w (fst old) (fst v) /\ fields_read r ws' (snd old) (snd v)) \/
      (f_tag f <> B "#" /\ named_read (f_kind f) (values (f_tag f) ws) (fst old) (fst v) /\ fields_read r ws (snd old) (snd v))
  end.

(** ** Crashes *)

(** The decoder crashes on a hash that is too long, *)
Definition value_crash (k : kind) (x : bytes) : Prop := (k = KTth \/ k = KPtr KTth) /\ overlong x.
(** Named values whose decoding crashes. *)
Definition named_crash (k : kind) (vs : list bytes) : Prop :=
  exists x more, vs = x :: more /\ value_crash k x /\ (k = KPtr KTth -> more = []).
(** or when a field without name finds no word; the fields before have been read. *)
Fixpoint fields_crash (fs : list field) (ws : list bytes) : vals fs -> Prop :=
  match fs with
  | [] => fun _ => False
  | f :: r => fun old =>
      (f_tag f = B "#" /\
       (ws = [] \/ exists w ws', ws = w :: ws' /\
         (value_crash (f_kind f) w \/ (exists v, value_read (f_kind f) w (fst old) v) /\ fields_crash r ws' (snd old)))) \/
      (f_tag f <> B "#" /\
       (named_crash (f_kind f) (values (f_tag f) ws) \/
        (exists v, named_read (f_kind f) (values (f_tag f) ws) (fst old) v) /\ fields_crash r ws (snd old)))
  end.

(** Identifiers and hashes are arrays. *)
Definition array_size (k : kind) : val k -> Prop :=
  match k with
  | KSid => fun v => length v = 4
  | KCid | KTth => fun v => length v = 24
  | _ => fun _ => True
  end.
(** Identifiers and hashes have the sizes of the Go arrays. *)
Fixpoint array_sizes (fs : list field) : vals fs -> Prop :=
  match fs with [] => fun _ => True | f :: r => fun v => array_size (f_kind f) (fst v) /\ array_sizes r (snd v) end.

(** ** Messages *)

(** Message types that are structures *)
Definition codes : list (string * stype) :=
  [("MSG", TChat); ("RCM", TRcm); ("CTM", TCtm); ("GFI", TGfi); ("CMD", TCmd); ("PAS", TPas); ("QUI", TQui);
   ("SCH", TSch); ("RES", TRes); ("INF", TInf)]%string.
(** and the others *)
Definition other_codes : list string := ["SUP"; "STA"; "ZON"; "ZOF"; "GET"; "SND"; "SID"; "GPA"]%string.

(** [features_read ws m]: the features [m] that the words announce.  Those added anywhere are enabled. *)
Definition features_read (ws : list bytes) (m : list (bytes * bool)) : Prop :=
  exists add rm, Forall2 denotes_text (values (B "AD") ws) add /\ Forall2 denotes_text (values (B "RM") ws) rm /\
    Forall (fun f => length f = 4) (add ++ rm) /\ distinct m /\
    forall k b, In (k, b) m <-> (b = true /\ In k add) \/ (b = false /\ In k rm /\ ~ In k add).

(** [status_read s st]: a number, of which the last two digits are the code, and a text *)
Definition status_read (s : bytes) (st : status) : Prop :=
  exists head tail n, s = head ++ tail /\ ~ In " "%byte head /\ signed_decimal head n /\ int64 n /\
    (tail = [] /\ st_msg st = [] \/ exists e, tail = " "%byte :: e /\ denotes_text e (st_msg st)) /\
    st_sev st = Z.quot n 100 /\ st_code st = Z.rem n 100.

(** [get_read s g]: type, path, start and length; a request for compression may follow, and nothing may
    follow the space after the length. *)
Definition get_read (s : bytes) (g : getreq) : Prop :=
  exists t p a b tail, s = t ++ B " " ++ p ++ B " " ++ a ++ B " " ++ b ++ tail /\
    ~ In " "%byte t /\ ~ In " "%byte p /\ ~ In " "%byte a /\ ~ In " "%byte b /\
    denotes_text t (g_type g) /\ denotes_text p (g_path g) /\
    signed_decimal a (g_start g) /\ int64 (g_start g) /\ signed_decimal b (g_bytes g) /\ int64 (g_bytes g) /\
    (g_comp g = false /\ (tail = [] \/ tail = B " ") \/ g_comp g = true /\ tail = B " ZL1").

(** [base32_read x b]: symbols for [b]; line breaks are ignored.  Of an incomplete group of eight symbols, two,
    four, five and seven give one, two, three and four bytes, other numbers nothing; after the former the
    byte 0xFF may stand for the symbols missing. *)
Definition bytes_of_symbols (j : nat) : nat := match j with 2 => 1 | 4 => 2 | 5 => 3 | 7 => 4 | _ => 0 end%nat.
(** Text in base32 and the bytes it stands for. *)
Definition base32_read (x b : bytes) : Prop :=
  exists t tail r, unbroken x = t ++ tail /\ spells t (flat_map bits8 b ++ r) /\
    length b = 5 * (length t / 8) + bytes_of_symbols (length t mod 8) /\
    (tail = [] \/ exists j y, j = length t mod 8 /\ tail = xff :: y /\ (j = 2 \/ j = 4 \/ j = 5 \/ j = 7) /\
      7 - j <= length y <= 7 /\ Forall (eq xff) (firstn (7 - j) y)).
(** A salt is followed by zeros for each five bits that the length of the text would allow. *)
Definition salt_read (x salt : bytes) : Prop :=
  exists b, base32_read x b /\ salt = b ++ repeat x00 (length x * 5 / 8 - length b).

(** [message_read name s m]: a message of type [name] with the payload [s] is decoded to [m]. *)
Inductive message_read : bytes -> bytes -> amsg -> Prop :=
| mr_struct n t s ws v : In (n, t) codes -> separated s ws -> fields_read (fields_of t) ws (zeros (fields_of t)) v ->
    message_read (B n) s (AStruct t v)
| mr_sup s ws m : separated s ws -> features_read ws m -> message_read (B "SUP") s (ASup m)
| mr_sta s st : status_read s st -> message_read (B "STA") s (ASta st)
| mr_zon s : message_read (B "ZON") s AZon
| mr_zof s : message_read (B "ZOF") s AZof
| mr_get s g : get_read s g -> message_read (B "GET") s (AGet g)
| mr_snd s g : get_read s g -> message_read (B "SND") s (ASnd g)
| mr_sid s : length s = 4 -> message_read (B "SID") s (ASid s)
| mr_gpa s salt : salt_read s salt -> message_read (B "GPA") s (AGpa salt)
| mr_other n s : (forall t, ~ In (n, t) (map (fun c => (B (fst c), snd c)) codes)) -> ~ In n (map B other_codes) ->
    message_read n s (ARaw n s).

(** The structures of a message type; other messages never crash the decoder. *)
Definition message_crash (name s : bytes) : Prop :=
  exists n t ws, name = B n /\ In (n, t) codes /\ separated s ws /\ fields_crash (fields_of t) ws (zeros (fields_of t)).
End Read.

(** The order in which a map lists its features is not observable. *)
Definition same_message (m m' : amsg) : Prop :=
  match m, m' with
  | ASup f, ASup f' => distinct f /\ distinct f' /\ forall k b, In (k, b) f <-> In (k, b) f'
  | ASup _, _ | _, ASup _ => False
  | _, _ => m = m'
  end.

(** ** Packets *)

(** [headed n data id d]: the first [n] bytes and what comes after a separator; the last byte is a line
    feed.  If nothing follows, the line feed is the separator, or even the last byte of the identifier. *)
Inductive headed (n : nat) : bytes -> bytes -> bytes -> Prop :=
| hd_short a : length a + 1 = n -> headed n (a ++ [x0a]) (a ++ [x0a]) []
| hd_bare id : length id = n -> headed n (id ++ [x0a]) id []
| hd_more id c d : length id = n -> c = " "%byte \/ c = x0a -> headed n (id ++ c :: d ++ [x0a]) id d.

(** [selection x sel d]: feature selectors and spaces, then the payload, which does not start like these. *)
Inductive selection : bytes -> list (bytes * bool) -> bytes -> Prop :=
| se_none : selection [] [] []
| se_end c d : stop c -> selection (c :: d) [] (c :: d)
| se_space x sel d : selection x sel d -> selection (" "%byte :: x) sel d
| se_with f x sel d : length f = 4 -> selection x sel d -> selection ("+"%byte :: f ++ x) ((f, true) :: sel) d
| se_without f x sel d : length f = 4 -> selection x sel d -> selection ("-"%byte :: f ++ x) ((f, false) :: sel) d.

(** [packet_data name data p]: what follows kind, type and space is read as the packet [p]. *)
Inductive packet_data (name : bytes) : byte -> bytes -> packet -> Prop :=
| pd_info d : packet_data name "I" (d ++ [x0a]) (PInfo (ARaw name d))
| pd_hub d : packet_data name "H" (d ++ [x0a]) (PHub (ARaw name d))
| pd_client d : packet_data name "C" (d ++ [x0a]) (PClient (ARaw name d))
| pd_broadcast data id d : headed 4 data id d -> packet_data name "B" data (PBroadcast id (ARaw name d))
| pd_direct data ids id to d : headed 9 data ids d -> ids = id ++ " "%byte :: to -> length id = 4 ->
    packet_data name "D" data (PDirect id to (ARaw name d))
| pd_echo data ids id to d : headed 9 data ids d -> ids = id ++ " "%byte :: to -> length id = 4 ->
    packet_data name "E" data (PEcho id to (ARaw name d))
| pd_feature data id x sel d : headed 4 data id x -> selection x sel d -> packet_data name "F" data (PFeature id sel (ARaw name d))
| pd_udp data t cid d : headed 39 data t d -> hash_text_read t cid -> packet_data name "U" data (PUdp cid (ARaw name d)).

(** [packet_read l p]: the line [l] is a packet; its message is not decoded yet. *)
Definition packet_read (l : bytes) (p : packet) : Prop :=
  exists k name data, framed k name data l /\ ~ In x00 l /\ packet_data name k data p.

(** The same packet with its message decoded *)
Definition packet_message_read (pf : bytes -> float_result) (l : bytes) (p : packet) : Prop :=
  exists q name d, packet_read l q /\ raw q name d /\ message_read pf name d (message p) /\ set_message (message p) q = p.
(** Equal packets up to the order inside of maps. *)
Definition same_packet (p p' : packet) : Prop := same_message (message p) (message p') /\ set_message (message p) p' = p.
