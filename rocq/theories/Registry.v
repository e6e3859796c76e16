(** The maps of message types of the packages nmdc and adc, for message types of any program. *)
From Verif Require Import Base NmdcHub NmdcMessage AdcMessage.

Section Registry.

(** A Go type of messages by its values: the name that Type or Cmd returns for a value, the value of reflect.New, and
    whether the methods belong to the pointer only (nmdc/message.go:27-39, adc/messages.go:22-24). *)
Record gotype (V : Type) := mkGo { go_name : V -> bytes; go_zero : V; go_pointer : bool }.
Arguments mkGo {V}. Arguments go_name {V}. Arguments go_zero {V}. Arguments go_pointer {V}.

Context {V : Type}.

(** var messages, nmdc/message.go:16-18, adc/messages.go:11-13: the entries of the map *)
Definition type_map : Type := list (bytes * gotype V).
(** messages[typ], nmdc/message.go:46,61, adc/messages.go:28,39 *)
Fixpoint find_type (r : type_map) (typ : bytes) : option (gotype V) :=
  match r with
  | [] => None
  | (n, t) :: r' => if bytes_eqb n typ then Some t else find_type r' typ
  end.
(** RegisterMessage(m) for a value [v] of the type [t] or a pointer to it, nmdc/message.go:44-54, adc/messages.go:26-36;
    the map after the call and whether the call panics *)
Definition register (t : gotype V) (v : V) (r : type_map) : type_map * bool :=
  let typ := go_name t v in
  match find_type r typ with
  | Some _ => (r, true)
  | None => (r ++ [(typ, t)], false)
  end.
(** Model only: successive calls whose panics are recovered, nmdc/message.go:44-54, adc/messages.go:26-36 *)
Fixpoint register_all (calls : list (gotype V * V)) (r : type_map) : type_map * list bool :=
  match calls with
  | [] => (r, [])
  | (t, v) :: rest =>
      let (r1, p) := register t v r in
      let (r2, ps) := register_all rest r1 in (r2, p :: ps)
  end.

(** The result of NewMessage: a raw message or a new value; the message returned is a pointer to it (nmdc/message.go:63,65). *)
Inductive created := CRaw (typ : bytes) | CNew (t : gotype V) (v : V).
(** NewMessage, nmdc/message.go:60-66 *)
Definition create (r : type_map) (typ : bytes) : created :=
  match find_type r typ with
  | None => CRaw typ
  | Some t => CNew t (go_zero t)
  end.
(** Type() of the message created, nmdc/message.go:97-99 for raw messages *)
Definition created_type (c : created) : bytes :=
  match c with CRaw typ => typ | CNew t v => go_name t v end.
(** IsRegistered and IsRegisteredBytes, nmdc/message.go:79-88 *)
Definition has_type (r : type_map) (typ : bytes) : bool := match find_type r typ with Some _ => true | None => false end.
(** RegisteredTypes, nmdc/message.go:69-76, when the map is visited in the order [visit] *)
Definition type_list (visit : type_map) : list bytes := sort_strings (map fst visit).

(** UnmarshalMessage, adc/messages.go:38-52, for a way [decode] to decode into a new value (line 48): the last step
    panics if only the pointer is a Message (line 51).  A raw message is copied (line 77-80). *)
Definition receive (decode : gotype V -> bytes -> V -> res V) (r : type_map) (name data : bytes) : res (bytes + V) :=
  match find_type r name with
  | None => Ok (inl data)
  | Some t => do v <- decode t data (go_zero t); if go_pointer t then Panic else Ok (inr v)
  end.
End Registry.
Arguments mkGo {V}. Arguments go_name {V}. Arguments go_zero {V}. Arguments go_pointer {V}.
Arguments type_map : clear implicits. Arguments created : clear implicits.

(** The type of a message of the package nmdc: its name does not depend on the value (the Type methods, e.g.
    nmdc/msg_chat.go:31-33, nmdc/msg_hub.go:63-65) and the pointer has the methods. *)
Definition nmdc_type (m : msg) : gotype msg := mkGo (fun _ => msg_type m) m true.
(** The calls of the init functions, nmdc/msg_chat.go:12-17, nmdc/msg_hub.go:7-15 and so on, see NmdcMessage.registered *)
Definition nmdc_init : list (gotype msg * msg) := map (fun m => (nmdc_type m, m)) NmdcMessage.registered.
(** The type of a message of the package adc: the value has the methods (e.g. adc/chat.go:14-16, adc/hub.go:57-59). *)
Definition adc_type (m : amsg) : gotype amsg := mkGo (fun _ => cmd m) m false.
(** The calls of the init functions, adc/messages.go:15-20 and so on, see AdcMessage.registry *)
Definition adc_init : list (gotype amsg * amsg) := map (fun m => (adc_type m, m)) AdcMessage.registry.
