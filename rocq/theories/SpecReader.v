(** Independent specification of the NMDC message reader: what a line means, and which
    streams of messages a connection carries. *)
From Verif Require Import Base NmdcText NmdcMessage SpecCommand SpecNmdc SpecFrame LineReader SpecLine NmdcReader.

(** The bytes of command names. *)
Definition name_chars : bytes := B "abcdefghijklmnopqrstuvwxyzABCDEFGHIJKLMNOPQRSTUVWXYZ0123456789/-_.:".
(** A legal command name. *)
Definition command_name (limit : Z) (t : bytes) : Prop :=
  t <> [] /\ (Z.of_nat (length t) <= limit)%Z /\ Forall (fun b => In b name_chars) t.

(** The command (None for chat) and the arguments of a line, without its delimiter. *)
Inductive parsed : bytes -> option bytes -> bytes -> Prop :=
| pa_chat b : b <> [] -> (forall r, b <> "$"%byte :: r) -> parsed b None b
| pa_bare t : ~ In " "%byte t -> parsed ("$"%byte :: t) (Some t) []
| pa_args t a : ~ In " "%byte t -> parsed ("$"%byte :: t ++ " "%byte :: a) (Some t) a.

(** [l] is a legal line for a message of type [t] (empty: chat) with the arguments [a]. *)
Definition line_for (limit : Z) (l t a : bytes) : Prop :=
  exists body cmd, l = body ++ B "|" /\ ~ In x00 body /\ parsed body cmd a /\
    match cmd with None => t = [] | Some c => c = t /\ command_name limit c end.

(** A message which can be sent: the parts copied verbatim contain neither the delimiter nor
    NUL, and its command name is one the reader accepts and does not know otherwise. *)
Definition sendable (limit : Z) (m : msg) : Prop :=
  sized m /\ Forall (fun f => ~ In "|"%byte f /\ ~ In x00 f) (raw_fields m) /\
  (Z.of_nat (length (command m)) <= limit)%Z /\
  match m with MRaw t _ => command_name limit t /\ is_registered t = false | _ => True end.

(** The lines of a stream: keep-alives (None) and encoded messages. *)
Inductive sends enc dec (limit : Z) : option msg -> bytes -> Prop :=
| se_keep : sends enc dec limit None (B "|")
| se_msg m p f : wire enc dec m p -> sendable limit m -> framed (command m) p f -> sends enc dec limit (Some m) f.

(** The messages of a stream. *)
Fixpoint messages (l : list (option msg)) : list msg :=
  match l with [] => [] | None :: r => messages r | Some m :: r => m :: messages r end.
(** The number of keep-alives. *)
Fixpoint keep_alives (l : list (option msg)) : nat :=
  match l with [] => 0 | None :: r => S (keep_alives r) | Some _ :: r => keep_alives r end.

(** [n] successive calls of ReadMsg. *)
Fixpoint read_msgs {W Z} (act : Z -> zaction Z) (fuel n : nat) (w : W) (R : nreader W Z)
  : option (list (res (option msg)) * W * nreader W Z) :=
  match n with
  | O => Some ([], w, R)
  | S k =>
      match read_msg act fuel w R with
      | None => None
      | Some (o, w1, R1) =>
          match read_msgs act fuel k w1 R1 with
          | None => None
          | Some (os, w2, R2) => Some (o :: os, w2, R2)
          end
      end
  end.

(** The results of [n] calls: the messages, then end of file forever. *)
Definition msgs_then_eof (n : nat) (ms : list msg) : list (res (option msg)) :=
  firstn n (map (fun m => Ok (Some m)) ms ++ repeat (Err EEOF) n).

(** The lines taken from the line reader, whatever the hook states in between. *)
Inductive takes {W Z} (act : Z -> zaction Z) (fuel : nat) : reader W Z -> list bytes -> reader W Z -> Prop :=
| ta_nil r : takes act fuel r [] r
| ta_cons r w l w' r1 ls r2 : read_line act fuel w r = Some (LLine l, w', r1) -> takes act fuel r1 ls r2 -> takes act fuel r (l :: ls) r2.

(** A reader over a connection with the given line limit, decoder and callbacks. *)
Definition nreader_on {W Z} (maxline : BinInt.Z) (dec : codec) (cfg : ncfg W) (c : script) : nreader W Z :=
  mkNreader (limited maxline [] c "|"%byte) dec cfg.

(** ** Message hooks *)
(** The hooks leave the messages as they are. *)
Definition observing {W} (c : ncfg W) : Prop := Forall (fun h => forall x, snd (fst (h x)) = snd x) (nc_msg c).
(** A hook that drops the messages satisfying [p]. *)
Definition dropping {W} (p : msg -> bool) : W * msg -> (W * msg) * hook_res := fun x => (x, if p (snd x) then HDrop else HPass).
(** Dropped messages are of the same Go type as the message after them, and leave no trace
    in it: the fields its line may leave alone are zero in the dropped message. *)
Fixpoint drops_alike (p : msg -> bool) (prev : option msg) (l : list msg) : Prop :=
  match l with
  | [] => True
  | m :: r =>
      match prev with Some m0 => same_kind m m0 /\ sized m0 /\ unset m0 | None => True end /\
      drops_alike p (if p m then Some m else None) r
  end.
