(** Specification of the ADC packet reader and writer: which packets a stream carries and what a
    sequence of calls is supposed to write or return. *)
From Verif Require Import Base LineReader SpecLine LineWriter SpecWriter AdcValue AdcMessage AdcPacket SpecAdc SpecAdcMessage AdcReader AdcWriter.

(** ** Reading *)

(** Calls on a reader; [sp] is the capacity behind the line. *)
Inductive rcall := CPacket (sp : nat) | CRaw (sp : nat) | CInfo (sp : nat) | CClient (sp : nat).
(** What a call returns. *)
Inductive answer := APacket (p : res packet) | AMessage (m : res amsg).

Section Calls.
Context {W Z : Type} (act : Z -> zaction Z) (pf : bytes -> float_result).

(** One call of the reader. *)
Definition run_rcall (fuel : nat) (c : rcall) (w : W) (R : areader W Z) : option (answer * W * areader W Z) :=
  let p x := match x with Some (r, w, R) => Some (APacket r, w, R) | None => None end in
  let m x := match x with Some (r, w, R) => Some (AMessage r, w, R) | None => None end in
  match c with
  | CPacket sp => p (read_packet act pf sp fuel w R)
  | CRaw sp => p (read_packet_raw act sp fuel w R)
  | CInfo sp => m (read_info act pf sp fuel w R)
  | CClient sp => m (read_client act pf sp fuel w R)
  end.

(** Calls one after the other. *)
Fixpoint run_rcalls (fuel : nat) (cs : list rcall) (w : W) (R : areader W Z) : option (list answer * W * areader W Z) :=
  match cs with
  | [] => Some ([], w, R)
  | c :: r =>
      match run_rcall fuel c w R with
      | None => None
      | Some (o, w1, R1) => match run_rcalls fuel r w1 R1 with None => None | Some (os, w2, R2) => Some (o :: os, w2, R2) end
      end
  end.

(** What a call says about the line it gets *)
Definition about (c : rcall) (l : bytes) : answer :=
  match c with
  | CPacket sp => APacket (decode_packet pf sp l)
  | CRaw sp => APacket (decode_packet_raw sp l)
  | CInfo sp => AMessage (do p <- decode_packet_raw sp l; info_message pf p)
  | CClient sp => AMessage (do p <- decode_packet_raw sp l; client_message pf p)
  end.
(** The answer of a call which fails. *)
Definition failed (c : rcall) (e : error) : answer :=
  match c with CPacket _ | CRaw _ => APacket (Err e) | _ => AMessage (Err e) end.

(** Each call gets the next line that is not a keep-alive, the calls after the last one end of file. *)
Fixpoint answers (cs : list rcall) (ls : list bytes) : list answer :=
  match cs, ls with
  | [], _ => []
  | c :: cs', l :: ls' => about c l :: answers cs' ls'
  | c :: cs', [] => failed c EEOF :: answers cs' []
  end.
End Calls.

(** The lines of a stream that are packets, and the number of the others *)
Definition keep_alive_line (l : bytes) : bool := match l with [_] => true | _ => false end.
(** Lines which are no keep-alives. *)
Definition packet_lines (ls : list bytes) : list bytes := filter (fun l => negb (keep_alive_line l)) ls.
(** The number of keep-alives. *)
Definition keep_alive_lines (ls : list bytes) : nat := length (filter keep_alive_line ls).

(** A reader over a connection with the given line limit and callback *)
Definition areader_on {W Z} (maxline : BinInt.Z) (keep : option (W -> W * option error)) (c : script) : areader W Z :=
  mkAreader (limited maxline [] c x0a) keep.

(** ** Writing *)

(** The calls of the writer. *)
Inductive aop := APkt (p : packet) | AStream (st : stream) (m : amsg) | AKeep | AFlush | AEnable (lvl : Z) | ADisable.

Section Runs.
Context {W dst : Type} (dinit : Z -> dst) (dstep : dst -> dop -> dst * list bytes).

(** One call: its error.  EnableZlibLevel and DisableZlib are methods of the embedded writer. *)
Definition run_aop (s : W) (o : aop) (x : awriter W dst) : wout (option error * W * awriter W dst) :=
  let lift (r : wout (option error * writer W dst)) :=
    match r with WRet (e, w') => WRet (e, s, mkAwriter w' (aw_mbuf x)) | WPan => WPan | WStuck => WStuck end in
  match o with
  | APkt p => write_packet dstep p s x
  | AStream st m => stream_message dstep st m s x
  | AKeep => write_keep_alive dstep s x
  | AFlush => aw_flush dstep s x
  | AEnable lvl => lift (enable_zlib_level dinit dstep lvl (aw_line x))
  | ADisable => lift (disable_zlib dstep (aw_line x))
  end.

(** A history of calls and their results. *)
Inductive aruns : W -> awriter W dst -> list (aop * option error) -> W -> awriter W dst -> Prop :=
| ar_nil s x : aruns s x [] s x
| ar_cons s x o e s1 x1 h s2 x2 : run_aop s o x = WRet (e, s1, x1) -> aruns s1 x1 h s2 x2 -> aruns s x ((o, e) :: h) s2 x2.
End Runs.

(** A new writer with timeouts *)
Definition afresh {W dst} (script : list wresp) (size : nat) (tmo : option (list (option error))) : awriter W dst :=
  mkAwriter (fresh script size [] tmo) [].

(** The packets and keep-alives (None) handed to a sequence of calls *)
Definition stream_packet (st : stream) (m : amsg) : packet :=
  match st with
  | SHub => PHub m | SInfo => PInfo m | SClient => PClient m | SBroadcast i => PBroadcast i m
  | SDirect i t => PDirect i t m | SEcho i t => PEcho i t m | SFeature i s => PFeature i s m
  end.
(** The packets and keep-alives written by a history. *)
Definition aop_items (h : list (aop * option error)) : list (option packet) :=
  flat_map (fun r => match fst r with APkt p => [Some p] | AStream st m => [Some (stream_packet st m)] | AKeep => [None] | _ => [] end) h.
(** The line of a packet or keep-alive. *)
Definition item_line (it : option packet) : bytes := match it with Some p => marshal_packet p | None => [x0a] end.
(** The packets among the items. *)
Fixpoint packets (l : list (option packet)) : list packet :=
  match l with [] => [] | None :: r => packets r | Some p :: r => p :: packets r end.
(** The number of keep-alives among the items. *)
Fixpoint keep_alives (l : list (option packet)) : nat :=
  match l with [] => 0 | None :: r => S (keep_alives r) | Some _ :: r => keep_alives r end.

(** No call which changes the compression. *)
Definition no_switch (r : aop * option error) : Prop := match fst r with AEnable _ | ADisable => False | _ => True end.

(** A packet that can be sent: nothing in it can be taken for the end of the line. *)
Definition one_line (p : packet) : Prop := quiet_message (message p) /\ quiet_parts p.
(** Packets that survive: an undecoded message that is not confused with its header. *)
Definition faithful (p : packet) : Prop :=
  exists t d, raw p t d /\ length t = 3 /\ ~ In x00 t /\ ~ In x00 d /\ parts_ok p /\ payload_ok p.

(** The answers of successive calls of ReadPacketRaw *)
Definition packets_then_eof (n : nat) (ps : list packet) : list answer :=
  firstn n (map (fun p => APacket (Ok p)) ps ++ repeat (APacket (Err EEOF)) n).
