(** Messages of package adc: adc/messages.go, chat.go, connect.go, files.go, hub.go, search.go,
    user.go and the feature maps of adc/types.go.

    Only the message types of this package are modelled; a program may register more. *)
From Verif Require Import Base Num Base32 Tiger AdcText AdcValue.

(** Struct fields with the tag adc:"TG" or adc:"TG,req" (adc/marshal.go:235-244) *)
Definition fld (n t : string) (k : kind) : field := {| f_name := n; f_tag := B t; f_req := false; f_kind := k |}.
(** A field with ",req", adc/marshal.go:235-244 *)
Definition req (n t : string) (k : kind) : field := {| f_name := n; f_tag := B t; f_req := true; f_kind := k |}.
Arguments fld (n t)%string k.
Arguments req (n t)%string k.

(** ChatMessage, adc/chat.go:7-12 *)
Definition chat_fields : list field :=
  [fld "Text" "#" KStr; fld "PM" "PM" (KPtr KSid); fld "Me" "ME" KBool; fld "TS" "TS" KInt].
(** RevConnectRequest, adc/connect.go:8-11 *)
Definition rcm_fields : list field :=
  [fld "Proto" "#" KStr; fld "Token" "#" KStr].
(** ConnectRequest, adc/connect.go:17-21 *)
Definition ctm_fields : list field :=
  [fld "Proto" "#" KStr; fld "Port" "#" KInt; fld "Token" "#" KStr].
(** GetInfoRequest, adc/files.go:19-22 *)
Definition gfi_fields : list field :=
  [fld "Type" "#" KStr; fld "Path" "#" KStr].
(** UserCommand, adc/hub.go:48-55 *)
Definition cmd_fields : list field :=
  [fld "Path" "#" KPath; fld "Command" "TT" KStr; fld "Category" "CT" KInt; fld "Remove" "RM" KInt;
   fld "Constrained" "CO" KInt; fld "Separator" "SP" KInt].
(** Password, adc/hub.go:91-93 *)
Definition pas_fields : list field :=
  [fld "Hash" "#" KTth].
(** Disconnect, adc/hub.go:99-106 *)
Definition qui_fields : list field :=
  [fld "ID" "#" KSid; fld "Message" "MS" KStr; fld "By" "ID" KSid; fld "Duration" "TL" KInt;
   fld "Redirect" "RD" KStr].
(** SearchRequest, adc/search.go:31-49 *)
Definition sch_fields : list field :=
  [fld "Token" "TO" KStr; fld "And" "AN" KStrs; fld "Not" "NO" KStrs; fld "Ext" "EX" KStrs;
   fld "Le" "LE" KInt; fld "Ge" "GE" KInt; fld "Eq" "EQ" KInt; fld "Type" "TY" KInt;
   fld "TTH" "TR" (KPtr KTth); fld "Group" "GR" KInt; fld "NoExt" "RX" KStrs].
(** SearchResult, adc/search.go:55-63 *)
Definition res_fields : list field :=
  [fld "Token" "TO" KStr; fld "Path" "FN" KStr; fld "Size" "SI" KInt; fld "Slots" "SL" KInt;
   fld "TTH" "TR" (KPtr KTth)].
(** UserInfo, adc/user.go:56-99 *)
Definition inf_fields : list field :=
  [fld "Id" "ID" KCid; fld "Pid" "PD" (KPtr KCid); req "Name" "NI" KStr; fld "Ip4" "I4" KStr;
   fld "Ip6" "I6" KStr; fld "Udp4" "U4" KInt; fld "Udp6" "U6" KInt; req "ShareSize" "SS" KInt;
   req "ShareFiles" "SF" KInt; req "Version" "VE" KStr; fld "Application" "AP" KStr;
   fld "MaxUpload" "US" KStr; fld "MaxDownload" "DS" KStr; req "Slots" "SL" KInt; req "SlotsFree" "FS" KInt;
   fld "AutoSlotLimit" "AS" KInt; fld "Email" "EM" KStr; fld "Desc" "DE" KStr; req "HubsNormal" "HN" KInt;
   req "HubsRegistered" "HR" KInt; req "HubsOperator" "HO" KInt; fld "Token" "TO" KStr; fld "Type" "CT" KInt;
   fld "Away" "AW" KInt; fld "Ref" "RF" KStr; req "Features" "SU" KFeas; fld "KP" "KP" KStr;
   fld "Address" "EA" KStr].
(** HubInfo, adc/user.go:113-144 *)
Definition hub_fields : list field :=
  [req "Name" "NI" KStr; req "Version" "VE" KStr; fld "Application" "AP" KStr; fld "Desc" "DE" KStr;
   fld "Type" "CT" KInt; fld "Address" "HH" KStr; fld "Website" "WS" KStr; fld "Network" "NE" KStr;
   fld "Owner" "OW" KStr; fld "Users" "UC" KInt; fld "Share" "SS" KInt; fld "Files" "SF" KInt;
   fld "MinShare" "MS" KInt; fld "MaxShare" "XS" KInt; fld "MinSlots" "ML" KInt; fld "MaxSlots" "XL" KInt;
   fld "UsersLimit" "MC" KInt; fld "Uptime" "UP" KInt; fld "MaxHubsUser" "XU" KInt;
   fld "MaxHubsReg" "XR" KInt; fld "MaxHubsOp" "XO" KInt].

(** The message types encoded by their tags, and their fields
    (adc/chat.go:7, adc/connect.go:8,17, adc/files.go:19, adc/hub.go:48,91,99, adc/search.go:31,55, adc/user.go:56,113). *)
Inductive stype := TChat | TRcm | TCtm | TGfi | TCmd | TPas | TQui | TSch | TRes | TInf | THub.
(** The fields of a type, see the sources above (adc/marshal.go:235-244) *)
Definition fields_of (t : stype) : list field :=
  match t with
  | TChat => chat_fields | TRcm => rcm_fields | TCtm => ctm_fields | TGfi => gfi_fields
  | TCmd => cmd_fields | TPas => pas_fields | TQui => qui_fields | TSch => sch_fields
  | TRes => res_fields | TInf => inf_fields | THub => hub_fields
  end.

(** UserInfo.Normalize, adc/user.go:105-111 *)
Definition normalize (u : vals inf_fields) : vals inf_fields :=
  match get_str "Application" inf_fields u with
  | [] =>
      match last_cut " " (get_str "Version" inf_fields u) with
      | Some (app, ver) => set_str "Version" ver inf_fields (set_str "Application" app inf_fields u)
      | None => u
      end
  | _ => u
  end.

(** ** Feature maps, adc/types.go:94-196

    The contents of a map are a list of keys and values with different keys.  Functions that
    range over a map take the order of iteration, a permutation of the contents, as an argument. *)
Notation fmap := (list (bytes * bool)).
(** m[fea], adc/types.go:158,180 *)
Fixpoint fm_get (k : bytes) (m : fmap) : option bool :=
  match m with
  | [] => None
  | (k', v) :: r => if bytes_eqb k k' then Some v else fm_get k r
  end.
(** m[fea] = v, adc/types.go:99,142,149,168,181 *)
Fixpoint fm_set (k : bytes) (v : bool) (m : fmap) : fmap :=
  match m with
  | [] => [(k, v)]
  | (k', v') :: r => if bytes_eqb k k' then (k, v) :: r else (k', v') :: fm_set k v r
  end.

(** ModFeatures.MarshalADC, adc/types.go:104-120, iterating in the order [it] *)
Definition modfeatures_marshal (it : fmap) : bytes :=
  join (B " ") (map (fun '(f, st) => B (if st : bool then "AD" else "RM") ++ f) it).

(** The structure of ModFeatures.UnmarshalADC, adc/types.go:125-128 *)
Definition mod_fields : list field := [fld "Add" "AD" KStrs; fld "Rm" "RM" KStrs].
(** Its loops, adc/types.go:137-150 *)
Fixpoint mod_loop (v : bool) (names : list bytes) (m : fmap) : res fmap :=
  match names with
  | [] => Ok m
  | n :: r => do f <- feature_unmarshal n; mod_loop v r (fm_set f v m)
  end.
(** ModFeatures.UnmarshalADC, adc/types.go:122-152: the new contents of the map *)
Definition modfeatures_unmarshal (pf : bytes -> float_result) (s : bytes) (m : fmap) : res fmap :=
  do (add, (rm, _)) <- unmarshal_struct pf mod_fields s (zeros mod_fields);
  do m1 <- mod_loop false rm m;
  mod_loop true add m1.

(** Maps are references: a memory holds the contents, a ModFeatures is nil or an address
    (adc/types.go:94). *)
Notation fmaps := (list fmap).
(** ModFeatures, adc/types.go:94 *)
Definition modfeatures : Type := option nat.
(** The contents a reference denotes; a nil map has none: adc/types.go:98,155,167 *)
Definition contents (h : fmaps) (f : modfeatures) : fmap :=
  match f with None => [] | Some a => nth a h [] end.
(** [for k, v := range it { mf[k] = v }], adc/types.go:98-100,167-169 *)
Definition put_all (it m : fmap) : fmap := fold_left (fun m '(k, v) => fm_set k v m) it m.
(** ModFeatures.Clone, adc/types.go:96-102: a new map *)
Definition clone (it : fmap) (h : fmaps) : fmaps * modfeatures := (h ++ [put_all it []], Some (length h)).
(** An assignment to the map at an address (adc/types.go:99,168,181). *)
Fixpoint store (a : nat) (m : fmap) (h : fmaps) : fmaps :=
  match h, a with
  | [], _ => []
  | _ :: r, O => m :: r
  | x :: r, S a' => x :: store a' m r
  end.
(** ModFeatures.IsSet, adc/types.go:154-160 *)
Definition is_set (h : fmaps) (f : modfeatures) (s : bytes) : bool :=
  match f with
  | None => false
  | Some a => match fm_get s (nth a h []) with Some _ => true | None => false end
  end.
(** ModFeatures.SetFrom, adc/types.go:162-171; [it] and [it'] are the orders of iteration over f and fp *)
Definition set_from (it it' : fmap) (h : fmaps) (f fp : modfeatures) : fmaps * modfeatures :=
  match f, fp with
  | None, None => (h, None)
  | _, _ =>
      let '(h1, fi) := clone it h in
      match fi with
      | Some a => (store a (put_all it' (nth a h1 [])) h1, fi)
      | None => (h1, fi)
      end
  end.
(** The loop of Intersect, adc/types.go:178-184 *)
Definition common (it fp : fmap) : fmap :=
  fold_left (fun fi '(k, add) =>
    if add : bool then match fm_get k fp with Some true => fm_set k true fi | _ => fi end else fi) it [].
(** ModFeatures.Intersect, adc/types.go:173-186 *)
Definition intersect (it : fmap) (h : fmaps) (f fp : modfeatures) : fmaps * modfeatures :=
  match f, fp with
  | Some _, Some _ => (h ++ [common it (contents h fp)], Some (length h))
  | _, _ => (h, None)
  end.
(** ModFeatures.Join, adc/types.go:188-196 *)
Definition features_join (it : fmap) : bytes := join (B ",") (map fst (filter snd it)).

(** AddFeatures.MarshalADC, adc/types.go:60-71 *)
Definition addfeatures_marshal (l : list bytes) : bytes := join (B " ") (map (app (B "AD")) l).

(** ExtFeatures.Has, adc/types.go:205-212 *)
Definition ext_has (l : list bytes) (s : bytes) : bool := existsb (fun f => bytes_eqb f s) l.

(** BoolInt.MarshalADC and UnmarshalADC, adc/types.go:246-268 *)
Definition boolint_marshal (v : bool) : bytes := if v then B "1" else B "0".
(** BoolInt.UnmarshalADC, adc/types.go:255-268 *)
Definition boolint_unmarshal (s : bytes) : res bool :=
  match s with
  | [c] => if beq c "0" then Ok false else if beq c "1" then Ok true else Err (EText "wrong bool value")
  | _ => Err (EText "wrong bool value")
  end.

(** ** Messages with their own text form *)

(** Field and Fields, adc/messages.go:103-112: tag and value *)
Notation afield := (bytes * bytes)%type.
(** Fields.MarshalADC, adc/messages.go:114-125 *)
Definition fields_marshal (l : list afield) : bytes := join (B " ") (map (fun '(t, v) => t ++ escape v) l).
(** The loop of Fields.UnmarshalADC, adc/messages.go:134-145; the value kept is v, not s *)
Fixpoint fields_loop (sub : list bytes) : res (list afield) :=
  match sub with
  | [] => Ok []
  | v :: r =>
      match v with
      | a :: b :: v' => do l <- fields_loop r; Ok (([a; b], v') :: l)
      | _ => Err (EText "invalid field")
      end
  end.
(** Fields.UnmarshalADC, adc/messages.go:127-148 *)
Definition fields_unmarshal (s : bytes) : res (list afield) :=
  match s with [] => Ok [] | _ => fields_loop (split_byte " " s) end.

(** Status, adc/messages.go:184-188; Severity is an int (adc/messages.go:171-177) *)
Record status := { st_sev : Z; st_code : Z; st_msg : bytes }.
(** fmt's %02d, adc/messages.go:213 *)
Definition fmt_02d (z : Z) : bytes :=
  let s := format_int z in if (length s <? 2)%nat then "0"%byte :: s else s.
(** Status.MarshalADC, adc/messages.go:212-216 *)
Definition status_marshal (st : status) : bytes :=
  format_int (st_sev st) ++ fmt_02d (st_code st) ++ B " " ++ escape (st_msg st).
(** Status.UnmarshalADC, adc/messages.go:218-231 *)
Definition status_unmarshal (s : bytes) : res status :=
  let '(head, msg) := match cut " " s with Some (a, r) => (a, unescape r) | None => (s, []) end in
  do code <- parse_int64 head;
  Ok {| st_sev := Z.quot code 100; st_code := Z.rem code 100; st_msg := msg |}.
(** Status.Ok and Recoverable, adc/messages.go:194-200 *)
Definition status_ok (st : status) : bool := Z.eqb (st_sev st) 0.
(** Status.Recoverable, adc/messages.go:198-200 *)
Definition status_recoverable (st : status) : bool := (status_ok st || Z.eqb (st_sev st) 1)%bool.
(** Status.Err, adc/messages.go:202-210: nil, os.ErrNotExist or the status as an Error *)
Inductive status_error := NotExist | StatusError (st : status).
(** Status.Err, adc/messages.go:202-210 *)
Definition status_err (st : status) : option status_error :=
  if status_ok st then None
  else if Z.eqb (st_code st) 51 then Some NotExist
  else Some (StatusError st).

(** GetRequest, adc/files.go:33-39; GetResponse has the same fields (adc/files.go:107) *)
Record getreq := { g_type : bytes; g_path : bytes; g_start : Z; g_bytes : Z; g_comp : bool }.
(** GetRequest.MarshalADC, adc/files.go:45-57 *)
Definition get_marshal (g : getreq) : bytes :=
  escape (g_type g) ++ B " " ++ escape (g_path g) ++ B " " ++ format_int (g_start g) ++ B " " ++
  format_int (g_bytes g) ++ (if g_comp g then B " ZL1" else []).
(** GetRequest.UnmarshalADC, adc/files.go:59-105; Compressed is set but never cleared *)
Definition get_unmarshal (old : getreq) (s : bytes) : res getreq :=
  match cut " " s with
  | None => Err (EText "ADCGET: missing separator after field 1")
  | Some (typ, s1) =>
  match cut " " s1 with
  | None => Err (EText "ADCGET: missing separator after field 2")
  | Some (path, s2) =>
  match cut " " s2 with
  | None => Err (EText "ADCGET: missing separator after field 3")
  | Some (start, s3) =>
  match parse_int64 start with
  | Ok st =>
      let '(len, s4) := match cut " " s3 with Some (a, r) => (a, r) | None => (s3, []) end in
      match parse_int64 len with
      | Ok n =>
          match s4 with
          | [] => Ok {| g_type := unescape typ; g_path := unescape path; g_start := st; g_bytes := n; g_comp := g_comp old |}
          | _ => if bytes_eqb s4 (B "ZL1")
                 then Ok {| g_type := unescape typ; g_path := unescape path; g_start := st; g_bytes := n; g_comp := true |}
                 else Err (EText "ADCGET: invalid field 5")
          end
      | _ => Err (EText "ADCGET: unable to parse field 4")
      end
  | _ => Err (EText "ADCGET: unable to parse field 3")
  end end end end.

(** GetPassword.MarshalADC and UnmarshalADC, adc/hub.go:76-89; the number of bytes decoded is ignored *)
Definition gpa_marshal (salt : bytes) : bytes := b32_encode salt.
(** GetPassword.UnmarshalADC, adc/hub.go:84-89 *)
Definition gpa_unmarshal (s : bytes) : res bytes :=
  match b32_decode_to (repeat x00 (b32_decoded_len (length s))) s with
  | None => Panic
  | Some (_, _, Some e) => Err e
  | Some (salt, _, None) => Ok salt
  end.

(** ** The Message interface *)

(** Values of the interface, adc/messages.go:22-24 *)
Inductive amsg :=
| AStruct (t : stype) (v : vals (fields_of t))
| ASup (features : fmap)            (** adc/messages.go:155-157 *)
| ASta (st : status)
| AZon | AZof                       (** adc/messages.go:238-240,251-253 *)
| ASid (sid : bytes)                (** adc/hub.go:23-25 *)
| AGpa (salt : bytes)               (** adc/hub.go:68-70 *)
| AGet (g : getreq)
| ASnd (g : getreq)
| AMod (l : list afield)            (** UserInfoMod, adc/user.go:18 *)
| ARaw (typ data : bytes).          (** RawMessage, adc/messages.go:59-62 *)

(** The Cmd methods: adc/chat.go:14-16, adc/connect.go:13-15,23-25, adc/files.go:24-26,41-43,109-111,
    adc/hub.go:27-29,57-59,72-74,95-97,108-110, adc/messages.go:64-66,159-161,190-192,242-244,255-257,
    adc/search.go:51-53,65-67, adc/user.go:20-22,101-103,146-149 *)
Definition cmd (m : amsg) : bytes :=
  match m with
  | AStruct TChat _ => B "MSG" | AStruct TRcm _ => B "RCM" | AStruct TCtm _ => B "CTM"
  | AStruct TGfi _ => B "GFI" | AStruct TCmd _ => B "CMD" | AStruct TPas _ => B "PAS"
  | AStruct TQui _ => B "QUI" | AStruct TSch _ => B "SCH" | AStruct TRes _ => B "RES"
  | AStruct TInf _ => B "INF" | AStruct THub _ => B "INF"
  | ASup _ => B "SUP" | ASta _ => B "STA" | AZon => B "ZON" | AZof => B "ZOF" | ASid _ => B "SID"
  | AGpa _ => B "GPA" | AGet _ => B "GET" | ASnd _ => B "SND" | AMod _ => B "INF"
  | ARaw t _ => t
  end.

(** Marshal, adc/marshal.go:207-272 with the MarshalADC methods: SIDAssign adc/hub.go:31-33, NoArgs
    adc/messages.go:89-91, RawMessage 72-75, Supported 163-165, UserInfoMod adc/user.go:24-26,
    GetResponse adc/files.go:113-115.  The features of a Supported are listed in the order of iteration. *)
Definition marshal (m : amsg) : bytes :=
  match m with
  | AStruct t v => marshal_struct (fields_of t) v
  | ASup f => modfeatures_marshal f
  | ASta st => status_marshal st
  | AZon | AZof => []
  | ASid s => s
  | AGpa s => gpa_marshal s
  | AGet g | ASnd g => get_marshal g
  | AMod l => fields_marshal l
  | ARaw _ d => d
  end.

Section Decode.

Variable parse_float : bytes -> float_result.

(** Unmarshal into an existing message, adc/marshal.go:99-159 with the UnmarshalADC methods:
    adc/hub.go:35-37, adc/messages.go:77-80,93-96,167-169, adc/user.go:28-31, adc/files.go:117-119 *)
Definition unmarshal (s : bytes) (m : amsg) : res amsg :=
  match m with
  | AStruct t v => do v' <- unmarshal_struct parse_float (fields_of t) s v; Ok (AStruct t v')
  | ASup f => do f' <- modfeatures_unmarshal parse_float s f; Ok (ASup f')
  | ASta _ => do st <- status_unmarshal s; Ok (ASta st)
  | AZon => Ok AZon
  | AZof => Ok AZof
  | ASid _ => do x <- sid_unmarshal s; Ok (ASid x)
  | AGpa _ => do x <- gpa_unmarshal s; Ok (AGpa x)
  | AGet g => do g' <- get_unmarshal g s; Ok (AGet g')
  | ASnd g => do g' <- get_unmarshal g s; Ok (ASnd g')
  | AMod _ => do l <- fields_unmarshal s; Ok (AMod l)
  | ARaw t _ => Ok (ARaw t s)
  end.

(** The zero value of a structure, of GetRequest and Status: reflect.New, adc/messages.go:47 *)
Definition new_struct (t : stype) : amsg := AStruct t (zeros (fields_of t)).
(** new(GetRequest), adc/messages.go:47 *)
Definition new_get : getreq := {| g_type := []; g_path := []; g_start := 0; g_bytes := 0; g_comp := false |}.
(** new(Status), adc/messages.go:47 *)
Definition new_status : status := {| st_sev := 0; st_code := 0; st_msg := [] |}.

(** The registered messages: adc/messages.go:15-20, adc/chat.go:3-5, adc/connect.go:3-6, adc/files.go:13-17,
    adc/hub.go:10-16, adc/search.go:5-8, adc/user.go:8-11, and RegisterMessage, adc/messages.go:26-36 *)
Definition registry : list amsg :=
  [ASup []; ASta new_status; AZon; AZof;
   new_struct TChat; new_struct TRcm; new_struct TCtm;
   new_struct TGfi; AGet new_get; ASnd new_get;
   ASid (repeat x00 4); new_struct TCmd; AGpa []; new_struct TPas; new_struct TQui;
   new_struct TSch; new_struct TRes; new_struct TInf].
(** messages[name], adc/messages.go:39 *)
Definition registered (name : bytes) : option amsg := find (fun m => bytes_eqb (cmd m) name) registry.

(** UnmarshalMessage, adc/messages.go:38-52, and RawMessage.Decode, adc/messages.go:68-70 *)
Definition unmarshal_message (name s : bytes) : res amsg :=
  match registered name with
  | None => unmarshal s (ARaw name [])
  | Some m => unmarshal s m
  end.

End Decode.
