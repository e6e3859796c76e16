(** Independent specification of the ADC reader with message types of a program. *)
From Verif Require Import Base LineReader AdcMessage AdcPacket SpecAdcMessage SpecAdcRead SpecAdcReader SpecAdcStream AdcReader Registry AdcForeign.

Section Spec.
Context {W V Z : Type} (act : Z -> zaction Z).
Variable decode : gotype V -> bytes -> V -> fenv W V -> fenv W V * res V.
Notation env := (fenv W V).

(** The type registered for a name, *)
Definition entry (r : type_map V) (name : bytes) (t : gotype V) : Prop := exists a b, r = a ++ (name, t) :: b /\ Forall (fun e => fst e <> name) a.
(** or none. *)
Definition no_entry (r : type_map V) (name : bytes) : Prop := Forall (fun e => fst e <> name) r.

(** [received name d s s' x]: what becomes of the message with this name and payload.  Without a type it stays as it is. *)
Inductive received (name d : bytes) (s : env) : env -> res (option V) -> Prop :=
| rc_raw : no_entry (snd s) name -> received name d s s (Ok None)
| rc_value t s' v : entry (snd s) name t -> decode t d (go_zero t) s = (s', Ok v) -> go_pointer t = false -> received name d s s' (Ok (Some v))
| rc_pointer t s' v : entry (snd s) name t -> decode t d (go_zero t) s = (s', Ok v) -> go_pointer t = true -> received name d s s' Panic
| rc_error t s' e : entry (snd s) name t -> decode t d (go_zero t) s = (s', Err e) -> received name d s s' (Err e)
| rc_panic t s' : entry (snd s) name t -> decode t d (go_zero t) s = (s', Panic) -> received name d s s' Panic.

(** The packet with what has been received *)
Definition packet_with (p : packet) (x : res (option V)) : res (fpacket V) :=
  match x with Ok m => Ok (mkFp p m) | Err e => Err e | Panic => Panic end.
(** The message alone *)
Definition message_with (name d : bytes) (x : res (option V)) : res (bytes * bytes + V) :=
  match x with Ok None => Ok (inl (name, d)) | Ok (Some v) => Ok (inr v) | Err e => Err e | Panic => Panic end.

(** The capacity behind the line *)
Definition behind (c : fcall V) : nat := match c with FPacket sp | FPacketRaw sp | FInfo sp | FClient sp => sp | FRegister _ _ => 0 end.
(** Calls that read *)
Definition reads (c : fcall V) : Prop := match c with FRegister _ _ => False | _ => True end.
(** The answer with an error *)
Definition refuses (c : fcall V) (e : error) : fanswer V := match c with FPacket _ | FPacketRaw _ => FAPacket (Err e) | _ => FAMessage (Err e) end.
(** and that of a panic *)
Definition crashes (c : fcall V) : fanswer V := match c with FPacket _ | FPacketRaw _ => FAPacket Panic | _ => FAMessage Panic end.

(** [answered c l s s' a]: what a call returns for the line [l] *)
Inductive answered (c : fcall V) (l : bytes) (s : env) : env -> fanswer V -> Prop :=
| an_crash : reads c -> cut_selector (behind c) l -> answered c l s s (crashes c)
| an_wrong e : reads c -> ~ cut_selector (behind c) l -> (forall p, ~ packet_read l p) -> answered c l s s (refuses c e)
| an_raw sp p : c = FPacketRaw sp -> packet_read l p -> answered c l s s (FAPacket (Ok (mkFp p None)))
| an_packet sp p name d s' x : c = FPacket sp -> packet_read l p -> raw p name d -> received name d s s' x -> answered c l s s' (FAPacket (packet_with p x))
| an_info sp name d s' x : c = FInfo sp -> packet_read l (PInfo (ARaw name d)) -> received name d s s' x -> answered c l s s' (FAMessage (message_with name d x))
| an_client sp name d s' x : c = FClient sp -> packet_read l (PClient (ARaw name d)) -> received name d s s' x -> answered c l s s' (FAMessage (message_with name d x))
| an_no_info sp p e : c = FInfo sp -> packet_read l p -> (forall m, p <> PInfo m) -> answered c l s s (FAMessage (Err e))
| an_no_client sp p e : c = FClient sp -> packet_read l p -> (forall m, p <> PClient m) -> answered c l s s (FAMessage (Err e)).

(** ReadLine of the line reader, with its own callbacks *)
Definition line_read (s : env) (r : reader env Z) (o : line_out) (s' : env) (r' : reader env Z) : Prop := exists f, read_line act f s r = Some (o, s', r').
(** [awaited keep s r o s' r']: the next line that is no keep-alive *)
Inductive awaited (keep : option (env -> env * option error)) : env -> reader env Z -> res bytes -> env -> reader env Z -> Prop :=
| aw_error s r o e s1 r1 : line_read s r (LErr o e) s1 r1 -> awaited keep s r (Err e) s1 r1
| aw_panic s r s1 r1 : line_read s r LPanic s1 r1 -> awaited keep s r Panic s1 r1
| aw_open s r l e s1 r1 : line_read s r (LLine l) s1 r1 -> (forall b, l <> b ++ [x0a]) -> awaited keep s r (Err e) s1 r1
| aw_line s r b s1 r1 : line_read s r (LLine (b ++ [x0a])) s1 r1 -> b <> [] -> awaited keep s r (Ok (b ++ [x0a])) s1 r1
| aw_alive s r s1 r1 s2 o s3 r3 : line_read s r (LLine [x0a]) s1 r1 -> on_keep keep s1 = (s2, None) -> awaited keep s2 r1 o s3 r3 -> awaited keep s r o s3 r3
| aw_stop s r s1 r1 s2 e : line_read s r (LLine [x0a]) s1 r1 -> on_keep keep s1 = (s2, Some e) -> awaited keep s r (Err e) s2 r1.

(** The same on the lines of a stream, which ends behind them *)
Inductive gets (keep : option (env -> env * option error)) : env -> list bytes -> res bytes -> env -> list bytes -> Prop :=
| ge_end s : gets keep s [] (Err EEOF) s []
| ge_line s l ls : l <> [x0a] -> gets keep s (l :: ls) (Ok l) s ls
| ge_alive s ls s1 o s2 ls2 : on_keep keep s = (s1, None) -> gets keep s1 ls o s2 ls2 -> gets keep s ([x0a] :: ls) o s2 ls2
| ge_stop s ls s1 e : on_keep keep s = (s1, Some e) -> gets keep s ([x0a] :: ls) (Err e) s1 ls.

(** The calls of a program and their answers, for a way to get the lines *)
Inductive serves {R : Type} (line : env -> R -> res bytes -> env -> R -> Prop) : env -> R -> list (fcall V * fanswer V) -> env -> R -> Prop :=
| sv_nil s r : serves line s r [] s r
| sv_known w m r t v h s' r' : ~ no_entry m (go_name t v) -> serves line (w, m) r h s' r' -> serves line (w, m) r ((FRegister t v, FADone true) :: h) s' r'
| sv_new w m r t v h s' r' : no_entry m (go_name t v) -> serves line (w, m ++ [(go_name t v, t)]) r h s' r' ->
    serves line (w, m) r ((FRegister t v, FADone false) :: h) s' r'
| sv_line s r c l s1 r1 a s2 h s' r' : reads c -> line s r (Ok l) s1 r1 -> answered c l s1 s2 a -> serves line s2 r1 h s' r' ->
    serves line s r ((c, a) :: h) s' r'
| sv_fail s r c e s1 r1 h s' r' : reads c -> line s r (Err e) s1 r1 -> serves line s1 r1 h s' r' -> serves line s r ((c, refuses c e) :: h) s' r'
| sv_panic s r c s1 r1 h s' r' : reads c -> line s r Panic s1 r1 -> serves line s1 r1 h s' r' -> serves line s r ((c, crashes c) :: h) s' r'.
End Spec.

(** Answers that differ in the texts of errors only *)
Definition alike {V} (a b : fanswer V) : Prop :=
  match a, b with
  | FAPacket (Ok p), FAPacket (Ok q) => p = q
  | FAMessage (Ok m), FAMessage (Ok n) => m = n
  | FAPacket (Err _), FAPacket (Err _) | FAMessage (Err _), FAMessage (Err _) | FAPacket Panic, FAPacket Panic | FAMessage Panic, FAMessage Panic => True
  | FADone x, FADone y => x = y
  | _, _ => False
  end.

(** The answers as those of the messages of the package *)
Definition plain_packet (p : fpacket amsg) : packet := match fp_msg p with None => fp_packet p | Some m => set_message m (fp_packet p) end.
(** The same for all answers *)
Definition plain_answer (a : fanswer amsg) : answer :=
  match a with
  | FAPacket (Ok p) => APacket (Ok (plain_packet p)) | FAPacket (Err e) => APacket (Err e) | FAPacket Panic => APacket Panic
  | FAMessage (Ok (inl (n, d))) => AMessage (Ok (ARaw n d)) | FAMessage (Ok (inr m)) => AMessage (Ok m) | FAMessage (Err e) => AMessage (Err e)
  | FAMessage Panic | FADone _ => AMessage Panic
  end.
(** The calls *)
Definition foreign_call {V} (c : rcall) : fcall V :=
  match c with SpecAdcReader.CPacket sp => FPacket sp | SpecAdcReader.CRaw sp => FPacketRaw sp | SpecAdcReader.CInfo sp => FInfo sp | SpecAdcReader.CClient sp => FClient sp end.
