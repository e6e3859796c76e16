(** nmdc/message.go: the Message interface as a sum type, framing, and the table of registered
    messages.

    Message types with the same fields and the same codec are grouped; a group constructor
    carries the Go type as its first argument.  Only the message types of this package are
    modelled: a program may register more, or implement Message itself. *)
From Verif Require Import Base Num NmdcText NmdcChat NmdcHub NmdcFiles NmdcUser.

(** Messages consisting of a Name: nmdc/msg_hub.go:17-23, nmdc/msg_other.go:35-51, nmdc/msg_user.go:25-65 *)
Inductive name_kind := KHello | KKick | KClose | KValidateNick | KValidateDenide | KMyNick | KQuit | KLogedIn.
(** Messages consisting of a String: nmdc/msg_hub.go:25-31,59-78, nmdc/msg_other.go:65-71, nmdc/msg_pass.go:9-15, nmdc/msg_ping.go:20-42 *)
Inductive string_kind := KHubName | KSetTopic | KMyPass | KBotINFO | KSetIcon | KSetLogo | KHubTopic.
(** Messages without arguments: nmdc/msg_files.go:255-261, nmdc/msg_hub.go:33-39,109-115, nmdc/msg_other.go:55-61, nmdc/msg_pass.go:17-31, nmdc/msg_user_list.go:15-21 *)
Inductive noargs_kind := KMaxedOut | KHubIsFull | KZOn | KGetTopic | KBadPass | KGetPass | KGetNickList.
(** Messages consisting of raw text: nmdc/msg_hub.go:41-57, nmdc/msg_lock.go:136-152, nmdc/msg_other.go:15-31 *)
Inductive text_kind := KVersion | KKey | KForceMove.
(** nmdc/msg_errors.go:13-69 *)
Inductive err_kind := KFailed | KError.
(** nmdc/msg_user_list.go:26-43 *)
Inductive list_kind := KOpList | KBotList.

(** nmdc/message.go:27-39 *)
Inductive msg :=
| MName (k : name_kind) (s : bytes)
| MString (k : string_kind) (s : bytes)
| MNoArgs (k : noargs_kind)
| MText (k : text_kind) (s : bytes)
| MErr (k : err_kind) (e : option bytes)
| MNames (k : list_kind) (l : list bytes)
| MChat (m : chat) | MPm (m : pm) | MMCTo (m : mcto) | MUserCommand (m : ucmd)
| MCtm (m : ctm) | MRevCtm (m : rctm)
| MAdcGet (m : adcget) | MAdcSnd (m : adcsnd) | MDirection (m : direction)
| MFailOver (l : list bytes) | MLock (m : lock) | MHubInfo (m : hubinfo)
| MSearch (m : search) | MSR (m : sr) | MSA (m : sa) | MSP (m : sp)
| MMyInfo (m : myinfo) | MUserIP (l : list (bytes * bytes)) | MSupports (l : list bytes)
| MRaw (typ data : bytes).

(** The Type methods of the groups, see the source ranges above
    (nmdc/msg_hub.go:17-23, nmdc/msg_other.go:35-51, nmdc/msg_user.go:25-65). *)
Definition name_type (k : name_kind) : bytes :=
  match k with
  | KHello => B "Hello"
  | KKick => B "Kick"
  | KClose => B "Close"
  | KValidateNick => B "ValidateNick"
  | KValidateDenide => B "ValidateDenide"
  | KMyNick => B "MyNick"
  | KQuit => B "Quit"
  | KLogedIn => B "LogedIn"
  end.
(** nmdc/msg_hub.go:25-31,59-78, nmdc/msg_other.go:65-71, nmdc/msg_pass.go:9-15, nmdc/msg_ping.go:20-42 *)
Definition string_type (k : string_kind) : bytes :=
  match k with
  | KHubName => B "HubName"
  | KSetTopic => B "SetTopic"
  | KMyPass => B "MyPass"
  | KBotINFO => B "BotINFO"
  | KSetIcon => B "SetIcon"
  | KSetLogo => B "SetLogo"
  | KHubTopic => B "HubTopic"
  end.
(** nmdc/msg_files.go:255-261, nmdc/msg_hub.go:33-39,109-115, nmdc/msg_other.go:55-61, nmdc/msg_pass.go:17-31, nmdc/msg_user_list.go:15-21 *)
Definition noargs_type (k : noargs_kind) : bytes :=
  match k with
  | KMaxedOut => B "MaxedOut"
  | KHubIsFull => B "HubIsFull"
  | KZOn => B "ZOn"
  | KGetTopic => B "GetTopic"
  | KBadPass => B "BadPass"
  | KGetPass => B "GetPass"
  | KGetNickList => B "GetNickList"
  end.
(** nmdc/msg_hub.go:41-57, nmdc/msg_lock.go:136-152, nmdc/msg_other.go:15-31 *)
Definition text_type (k : text_kind) : bytes :=
  match k with
  | KVersion => B "Version"
  | KKey => B "Key"
  | KForceMove => B "ForceMove"
  end.
(** nmdc/msg_errors.go:13-69 *)
Definition err_type (k : err_kind) : bytes :=
  match k with
  | KFailed => B "Failed"
  | KError => B "Error"
  end.
(** nmdc/msg_user_list.go:26-43 *)
Definition list_type (k : list_kind) : bytes :=
  match k with
  | KOpList => B "OpList"
  | KBotList => B "BotList"
  end.

(** Type methods: nmdc/msg_chat.go:31-33,119-121,190-192,264-266, nmdc/msg_ctm.go:30-32,117-119,
    nmdc/msg_files.go:25-27,135-137,214-216, nmdc/msg_hub.go:84-86, nmdc/msg_lock.go:34-36,
    nmdc/msg_ping.go:59-61, nmdc/msg_search.go:51-53,233-235,430-432,463-465, nmdc/msg_user.go:117-119,
    nmdc/msg_user_list.go:94-96, nmdc/extensions.go:26-28, nmdc/message.go:99-101 *)
Definition msg_type (m : msg) : bytes :=
  match m with
  | MName k _ => name_type k | MString k _ => string_type k | MNoArgs k => noargs_type k
  | MText k _ => text_type k | MErr k _ => err_type k | MNames k _ => list_type k
  | MChat _ => []
  | MPm _ => B "To:"
  | MMCTo _ => B "MCTo"
  | MUserCommand _ => B "UserCommand"
  | MCtm _ => B "ConnectToMe"
  | MRevCtm _ => B "RevConnectToMe"
  | MAdcGet _ => B "ADCGET"
  | MAdcSnd _ => B "ADCSND"
  | MDirection _ => B "Direction"
  | MFailOver _ => B "FailOver"
  | MLock _ => B "Lock"
  | MHubInfo _ => B "HubINFO"
  | MSearch _ => B "Search"
  | MSR _ => B "SR"
  | MSA _ => B "SA"
  | MSP _ => B "SP"
  | MMyInfo _ => B "MyINFO"
  | MUserIP _ => B "UserIP"
  | MSupports _ => B "Supports"
  | MRaw t _ => t
  end.

(** The message types in the registry: the calls of RegisterMessage (nmdc/message.go:44-54) in
    the init functions of the package, with the zero value created by reflect.New. *)
Definition registered : list msg :=
  [MName KHello []; MName KKick []; MName KClose []; MName KValidateNick []; MName KValidateDenide [];
   MName KMyNick []; MName KQuit []; MName KLogedIn []; MString KHubName []; MString KSetTopic [];
   MString KMyPass []; MString KBotINFO []; MString KSetIcon []; MString KSetLogo []; MString KHubTopic [];
   MNoArgs KMaxedOut; MNoArgs KHubIsFull; MNoArgs KZOn; MNoArgs KGetTopic; MNoArgs KBadPass;
   MNoArgs KGetPass; MNoArgs KGetNickList; MText KVersion []; MText KKey []; MText KForceMove [];
   MErr KFailed None; MErr KError None; MNames KOpList []; MNames KBotList []; MChat chat0;
   MPm pm0; MMCTo mcto0; MUserCommand ucmd0; MCtm ctm0; MRevCtm rctm0;
   MAdcGet adcget0; MAdcSnd adcsnd0; MDirection direction0; MFailOver []; MLock lock0;
   MHubInfo hubinfo0; MSearch search0; MSR sr0; MSA sa0; MSP sp0;
   MMyInfo myinfo0; MUserIP []; MSupports []].

(** NewMessage, nmdc/message.go:60-66 *)
Fixpoint lookup (l : list msg) (typ : bytes) : msg :=
  match l with
  | [] => MRaw typ []
  | m :: r => if bytes_eqb (msg_type m) typ then m else lookup r typ
  end.
(** NewMessage, nmdc/message.go:60-66 *)
Definition new_message (typ : bytes) : msg := lookup registered typ.

(** IsRegistered, IsRegisteredBytes, nmdc/message.go:78-88 *)
Definition is_registered (typ : bytes) : bool := existsb (fun m => bytes_eqb (msg_type m) typ) registered.

(** The MarshalNMDC methods; nmdc/message.go:104-107 for raw messages. *)
Definition msg_marshal (enc : codec) (m : msg) : res bytes :=
  match m with
  | MName _ s => name_marshal enc s
  | MString _ s => string_marshal enc s
  | MNoArgs _ => Ok []
  | MText _ s => Ok s
  | MErr _ e => err_marshal enc e
  | MNames _ l => names_marshal enc l
  | MChat m => chat_marshal enc m
  | MPm m => pm_marshal enc m
  | MMCTo m => mcto_marshal enc m
  | MUserCommand m => ucmd_marshal enc m
  | MCtm m => ctm_marshal enc m
  | MRevCtm m => rctm_marshal enc m
  | MAdcGet m => adcget_marshal enc m
  | MAdcSnd m => adcsnd_marshal enc m
  | MDirection m => Ok (direction_marshal m)
  | MFailOver l => Ok (failover_marshal l)
  | MLock m => Ok (lock_marshal m)
  | MHubInfo m => hubinfo_marshal enc m
  | MSearch m => search_marshal enc m
  | MSR m => sr_marshal enc m
  | MSA m => sa_marshal m
  | MSP m => sp_marshal enc m
  | MMyInfo m => myinfo_marshal enc m
  | MUserIP l => userip_marshal enc l
  | MSupports l => Ok (supports_marshal l)
  | MRaw _ d => Ok d
  end.

(** Result of decoding as a message of the same type (see nmdc/message.go:27-39). *)
Definition lift {A} (c : A -> msg) (p : A * res unit) : msg * res unit := (c (fst p), snd p).

(** The UnmarshalNMDC methods; nmdc/message.go:110-114 for raw messages. *)
Definition msg_unmarshal (dec : codec) (m : msg) (data : bytes) : msg * res unit :=
  match m with
  | MName k s => lift (MName k) (name_msg_unmarshal dec s data)
  | MString k s => lift (MString k) (string_msg_unmarshal dec s data)
  | MNoArgs k => (m, noargs_unmarshal data)
  | MText k _ => (MText k data, Ok tt)
  | MErr k e => lift (MErr k) (err_unmarshal dec e data)
  | MNames k l => lift (MNames k) (names_unmarshal dec l data)
  | MChat m => lift MChat (chat_unmarshal dec m data)
  | MPm m => lift MPm (pm_unmarshal dec m data)
  | MMCTo m => lift MMCTo (mcto_unmarshal dec m data)
  | MUserCommand m => lift MUserCommand (ucmd_unmarshal dec m data)
  | MCtm m => lift MCtm (ctm_unmarshal dec m data)
  | MRevCtm m => lift MRevCtm (rctm_unmarshal dec m data)
  | MAdcGet m => lift MAdcGet (adcget_unmarshal dec m data)
  | MAdcSnd m => lift MAdcSnd (adcsnd_unmarshal dec m data)
  | MDirection m => lift MDirection (direction_unmarshal m data)
  | MFailOver _ => (MFailOver (failover_unmarshal data), Ok tt)
  | MLock _ => (MLock (lock_unmarshal data), Ok tt)
  | MHubInfo m => lift MHubInfo (hubinfo_unmarshal dec m data)
  | MSearch m => lift MSearch (search_unmarshal dec m data)
  | MSR m => lift MSR (sr_unmarshal dec m data)
  | MSA m => lift MSA (sa_unmarshal m data)
  | MSP m => lift MSP (sp_unmarshal dec m data)
  | MMyInfo m => lift MMyInfo (myinfo_unmarshal dec m data)
  | MUserIP _ => lift MUserIP (userip_unmarshal dec data)
  | MSupports _ => (MSupports (supports_unmarshal data), Ok tt)
  | MRaw t _ => (MRaw t data, Ok tt)
  end.

(** MarshalTo, nmdc/message.go:118-136: the new contents of the buffer.  Without payload the
    last byte of the buffer becomes the delimiter; in an empty buffer there is none. *)
Definition msg_head (typ : bytes) : bytes := match typ with [] => [] | _ => B "$" ++ typ ++ B " " end.
(** MarshalTo, nmdc/message.go:118-136 *)
Definition marshal_to (enc : codec) (buf : bytes) (m : msg) : res bytes :=
  let buf := buf ++ msg_head (msg_type m) in
  do p <- msg_marshal enc m;
  match p with
  | [] => match buf with [] => Panic | _ => Ok (removelast buf ++ [delimiter]) end
  | _ => Ok (buf ++ p ++ [delimiter])
  end.
(** Marshal, nmdc/message.go:140-146 *)
Definition marshal (enc : codec) (m : msg) : res bytes := marshal_to enc [] m.
