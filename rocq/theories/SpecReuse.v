(** Independent specification of decoding into a used message: which fields of the old value remain
    for which payloads.  The payloads themselves are described by SpecRead.v. *)
From Verif Require Import Base SpecText SpecHash SpecNmdc SpecRead SpecFrame NmdcChat NmdcHub NmdcFiles NmdcUser NmdcMessage.

Section Over.
Variable dec : option (bytes -> option bytes).

(** An error whose text is empty remains. *)
Inductive err_over (o : option bytes) : bytes -> option bytes -> Prop :=
| eo_empty data : str_read dec data [] -> err_over o data o
| eo_text data s : s <> [] -> str_read dec data s -> err_over o data (Some s).

(** A line without a name keeps the old name. *)
Inductive chat_over (o : chat) : bytes -> chat -> Prop :=
| co_plain data t : ~ starts_with (B "<") data -> str_read dec data t -> chat_over o data (mk_chat (ch_name o) t)
| co_named d n t name text : chat_parts d n t -> name_read dec n name -> str_read dec t text ->
    chat_over o (B "<" ++ d) (mk_chat name text).

(** A command without path keeps the old path and command. *)
Inductive ucmd_over (o : ucmd) : bytes -> ucmd -> Prop :=
| uo_bare data core a b typ ctx : trimmed data core -> first (B " ") core a b -> ~ In " "%byte b ->
    int_read a typ -> leading b ctx -> ucmd_over o data (mk_ucmd typ ctx (uc_path o) (uc_command o))
| uo_full data core a r b v m : trimmed data core -> first (B " ") core a r -> first (B " ") r b v ->
    ucmd_read dec data m -> ucmd_over o data m.

(** Without a sender the old one remains; once secure, a request stays so. *)
Inductive ctm_over (o : ctm) : bytes -> ctm -> Prop :=
| cto data t r m : first (B " ") data t r -> ctm_read dec data m ->
    ctm_over o data (mk_ctm (ct_targ m) (if existsb (fun c => beq c " ") r then ct_src m else ct_src o)
      (ct_address m) (ct_kind m) (ct_secure o || ct_secure m)).

(** Compression and the number of bytes remain unless the line sets them. *)
Inductive adcget_over (o : adcget) : bytes -> adcget -> Prop :=
| ago data m : adcget_read dec data m ->
    adcget_over o data (mk_adcget (ag_type m) (ag_ident m) (ag_start m) (ag_length m) (ag_compressed o || ag_compressed m)
      (match ag_downloaded m with Some n => Some n | None => ag_downloaded o end)).
(** The same for the answer. *)
Inductive adcsnd_over (o : adcsnd) : bytes -> adcsnd -> Prop :=
| aso data m : adcsnd_read dec data m ->
    adcsnd_over o data (mk_adcsnd (as_type m) (as_ident m) (as_start m) (as_length m) (as_compressed o || as_compressed m)).

(** Software without version keeps the old version. *)
Definition software_over (o : bytes) (f : bytes) (sv : bytes * bytes) : Prop :=
  (f = fst sv ++ B " " ++ snd sv /\ ~ In " "%byte (snd sv)) \/ ~ In " "%byte f /\ sv = (f, o).
(** Fields which are missing keep their old values. *)
Inductive hubinfo_over (o : hubinfo) : bytes -> hubinfo -> Prop :=
| hio data fs name host desc i1 i2 i3 i4 soft vers owner state encoding : split_max "$" 13 data fs ->
    field fs 0 (str_read dec) (hi_name o) name -> field fs 1 eq (hi_host o) host -> field fs 2 (str_read dec) (hi_desc o) desc ->
    field fs 3 int_read (hi_i1 o) i1 -> field fs 4 int_read (hi_i2 o) i2 -> field fs 5 int_read (hi_i3 o) i3 -> field fs 6 int_read (hi_i4 o) i4 ->
    field fs 7 (software_over (hi_vers o)) (hi_soft o, hi_vers o) (soft, vers) ->
    field fs 8 (str_read dec) (hi_owner o) owner -> field fs 9 (str_read dec) (hi_state o) state ->
    (if (length fs <? 12)%nat then field fs 10 eq (hi_encoding o) encoding else encoding = hi_encoding o) ->
    hubinfo_over o data (mk_hubinfo name host desc i1 i2 i3 i4 soft vers owner state encoding).

(** A search from an address keeps the user and the other way round, an empty size the old one,
    a hash the pattern and a pattern the hash. *)
Inductive search_over (o : search) : bytes -> search -> Prop :=
| so_search data who r f2 f3 f4 addr user rs rs' mx size typ pat tth pat' tth' : first (B " ") data who r ->
    (exists n, who = B "Hub:" ++ n /\ name_read dec n user /\ addr = se_address o) \/
      (~ starts_with (B "Hub:") who /\ addr = who /\ user = se_user o) ->
    r = flag_text rs ++ B "?" ++ flag_text mx ++ B "?" ++ f2 ++ B "?" ++ f3 ++ B "?" ++ f4 -> ~ In "?"%byte f2 -> ~ In "?"%byte f3 ->
    (f2 = [] /\ rs' = rs /\ size = se_size o \/ f2 <> [] /\ size_read rs f2 rs' size) ->
    uint_read f3 typ -> what_read dec typ f4 pat' tth' ->
    (typ = 9%N /\ pat = se_pattern o /\ tth = tth' \/ typ <> 9%N /\ pat = pat' /\ tth = se_tth o) ->
    search_over o data (mk_search addr user rs' mx size typ pat tth).

(** A result with a hash keeps the name of the hub and the other way round; without a target the old
    one remains. *)
Inductive sr_over (o : sr) : bytes -> sr -> Prop :=
| sro data n r1 x r2 from p path isdir size slots r3 f t free total hub tth rest addr r4 to hub' tth' to' :
    first (B " ") data n r1 -> name_read dec n from -> first [x05] r1 x r2 ->
    (isdir = true /\ size = 0%N /\ r3 = r2 /\ (exists c, x = p ++ [c] ++ slots /\ ~ slot_char c /\ Forall slot_char slots /\ In "/"%byte slots)) \/
    (isdir = false /\ ~ slots_like x /\ p = x /\ exists ss s, first [x05] r2 ss r3 /\ first (B " ") ss s slots /\ uint_read s size) ->
    path_read dec p path -> first (B "/") slots f t -> int_read f free -> int_read t total ->
    hub_read dec r3 hub' tth' rest ->
    (hub, tth) = match tth' with Some h => (sr_hubname o, Some h) | None => (hub', sr_tth o) end ->
    first (B ")") rest addr r4 -> target_read dec r4 to' -> to = match r4 with [] => sr_to o | _ => to' end ->
    sr_over o data (mk_sr from path isdir size free total hub tth addr to).

(** User information without a tag keeps what the last tag said, except the mode; a tag keeps the
    version and the numbers it does not contain.  An empty field for the connection or for the size
    of the share keeps the old values. *)
Inductive myinfo_over (o : myinfo) : bytes -> myinfo -> Prop :=
| mio n f0 md f2 f3 f4 f5 name desc client version mode hn hr ho slots extra conn flag email share :
    ~ In " "%byte n -> name_read dec n name ->
    Forall (fun f => ~ In "$"%byte f) [f0; [md]; f2; f3; f4; f5] ->
    (~ In "<"%byte f0 /\ str_read dec f0 desc /\ mode = (if beq md " " then x00 else md) /\
       client = mi_client o /\ version = mi_version o /\
       (hn, hr, ho, slots) = (mi_hubs_normal o, mi_hubs_reg o, mi_hubs_op o, mi_slots o) /\ extra = mi_extra o \/
     exists d tag tag' c t fs is, f0 = d ++ B "<" ++ tag /\ ~ In "<"%byte tag /\ tag <> [] /\ str_read dec d desc /\
       without_suffix (B ">") tag tag' /\ tag_split tag' c t /\ split_on (B ",") t fs /\ items_read true fs is /\
       client = last_of sel_client c is /\ version = last_of sel_version (mi_version o) is /\ mode = last_of sel_mode x00 is /\
       hn = last_of sel_normal (mi_hubs_normal o) is /\ hr = last_of sel_reg (mi_hubs_reg o) is /\ ho = last_of sel_op (mi_hubs_op o) is /\
       slots = last_of sel_slots (mi_slots o) is /\ extras_read is extra) ->
    (f2 = [] /\ flag = mi_flag o /\ conn = mi_conn o \/ exists c, f2 = c ++ [flag] /\ str_read dec c conn) ->
    str_read dec f3 email ->
    (f4 = [] /\ share = mi_share o \/ f4 <> [] /\ (uint_read f4 share \/ (forall k, ~ uint_read f4 k) /\ share = 0%N)) ->
    myinfo_over o (B "$ALL " ++ n ++ B " " ++ sep_by (B "$") [f0; [md]; f2; f3; f4; f5])
      (mk_myinfo name desc client version mode hn hr ho slots extra conn flag email share).

(** [reads_over o data m]: decoding the payload [data] into [o] gives [m].  Every other type forgets
    its old value. *)
Inductive reads_over : msg -> bytes -> msg -> Prop :=
| ro_err k o data e : err_over o data e -> reads_over (MErr k o) data (MErr k e)
| ro_chat o data m : chat_over o data m -> reads_over (MChat o) data (MChat m)
| ro_ucmd o data m : ucmd_over o data m -> reads_over (MUserCommand o) data (MUserCommand m)
| ro_ctm o data m : ctm_over o data m -> reads_over (MCtm o) data (MCtm m)
| ro_adcget o data m : adcget_over o data m -> reads_over (MAdcGet o) data (MAdcGet m)
| ro_adcsnd o data m : adcsnd_over o data m -> reads_over (MAdcSnd o) data (MAdcSnd m)
| ro_hubinfo o data m : hubinfo_over o data m -> reads_over (MHubInfo o) data (MHubInfo m)
| ro_search o data m : search_over o data m -> reads_over (MSearch o) data (MSearch m)
| ro_sr o data m : sr_over o data m -> reads_over (MSR o) data (MSR m)
| ro_myinfo o data m : myinfo_over o data m -> reads_over (MMyInfo o) data (MMyInfo m)
| ro_raw t d data : reads_over (MRaw t d) data (MRaw t data)
| ro_other o data m : sets_all o -> (forall t d, o <> MRaw t d) -> same_kind o m -> reads dec data m -> reads_over o data m.
End Over.
