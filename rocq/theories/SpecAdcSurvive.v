(** Specification of the ADC messages and packets which arrive as they were sent.  The conditions are exact:
    all others arrive changed or are refused. *)
From Verif Require Import Base SpecText SpecHash AdcValue AdcMessage AdcPacket SpecAdc SpecAdcMessage SpecAdcRead SpecAdcReader SpecAdcWrite.

(** [message_fits m]: the message arrives at a side which knows its type. *)
Definition message_fits (m : amsg) : Prop :=
  match m with
  | AStruct t v => carries_all (fields_of t) v
  | ASup f => distinct f /\ Forall (fun e => length (fst e) = 4 /\ ~ In " "%byte (fst e) /\ denotes_text (fst e) (fst e)) f
  | ASta st => (0 <= st_sev st /\ 0 <= st_code st < 100 \/ st_sev st < 0 /\ st_code st = 0)%Z /\ int64 (100 * st_sev st + st_code st)
  | AZon | AZof | AGpa _ | ARaw _ _ => True
  | ASid s => length s = 4
  | AGet g | ASnd g => int64 (g_start g) /\ int64 (g_bytes g)
  | AMod l => Forall (fun f => length (fst f) = 2 /\ ~ In " "%byte (fst f) /\
                               ~ In "\"%byte (snd f) /\ ~ In " "%byte (snd f) /\ ~ In x0a (snd f)) l
  end.
(** A new message of the same type *)
Definition new_like (m : amsg) : amsg :=
  match m with
  | AStruct t _ => AStruct t (zeros (fields_of t))
  | ASup _ => ASup []
  | ASta _ => ASta {| st_sev := 0; st_code := 0; st_msg := [] |}
  | AZon => AZon | AZof => AZof
  | ASid _ => ASid (repeat x00 4)
  | AGpa _ => AGpa []
  | AGet _ => AGet {| g_type := []; g_path := []; g_start := 0; g_bytes := 0; g_comp := false |}
  | ASnd _ => ASnd {| g_type := []; g_path := []; g_start := 0; g_bytes := 0; g_comp := false |}
  | AMod _ => AMod []
  | ARaw t _ => ARaw t []
  end.
(** Types which are told by their code: it is that of user information for hub information and for changes of
    user information, and a raw message must not use one of a known type. *)
Definition told (m : amsg) : Prop :=
  match m with
  | AStruct THub _ | AMod _ => False
  | ARaw t _ => (forall s, ~ In (t, s) (map (fun c => (B (fst c), snd c)) codes)) /\ ~ In t (map B other_codes)
  | _ => True
  end.

(** [packet_fits p]: the packet arrives: its type has three characters, identifiers and features four, nothing in it
    is a NUL byte, and the payload of a feature packet does not start like another selector. *)
Definition packet_fits (p : packet) : Prop :=
  message_fits (message p) /\ told (message p) /\ parts_ok p /\
  length (code_of (message p)) = 3 /\ ~ In x00 (code_of (message p)) /\
  exists d, message_text (message p) d /\ ~ In x00 d /\
    match p, d with PFeature _ _ _, c :: _ => stop c | _, _ => True end.

(** [delivers os ps]: calls of ReadPacket return the packets one by one, then the end of the stream. *)
Inductive delivers : list answer -> list packet -> Prop :=
| dl_done ps : delivers [] ps
| dl_packet p p' os ps : same_packet p p' -> delivers os ps -> delivers (APacket (Ok p') :: os) (p :: ps)
| dl_end os : delivers os [] -> delivers (APacket (Err EEOF) :: os) [].
