(** Specification of what an NMDC message holds after decoding into it failed: what precedes the
    part that is missing or wrong has its new value, the rest has the old one. *)
From Verif Require Import Base SpecText SpecHash SpecNmdc SpecRead SpecFrame SpecReuse NmdcText NmdcChat NmdcHub NmdcFiles NmdcUser NmdcMessage.
From Verif Require SpecAdcLeft.

(** No value. *)
Definition refuses {A} (R : bytes -> A -> Prop) (s : bytes) : Prop := forall x, ~ R s x.
(** The part before the separator is missing or has no value. *)
Definition part_refused {A} (sep : bytes) (R : bytes -> A -> Prop) (s : bytes) : Prop :=
  forall a r, first sep s a r -> refuses R a.
(** The number left by a text which is not one: zero, or the nearest one if it is too large. *)
Definition int_left (s : bytes) (z : Z) : Prop :=
  exists d, padded s d /\ ~ starts_with (B " ") d /\ ~ ends_in " " d /\ SpecAdcLeft.number_left d z.
(** A hash that is not valid overwrites the first bytes of the old one. *)
Definition hash_left (s old h : bytes) : Prop :=
  exists b, SpecAdcLeft.decoded_part s b /\ SpecAdcLeft.overwritten old b h.

Section Left.
Variable dec : option (bytes -> option bytes).

(** The entries before the one that can not be read. *)
Definition list_left {A} (R : bytes -> A -> Prop) (ps : list bytes) (l : list A) : Prop :=
  exists done bad rest, ps = done ++ bad :: rest /\ Forall2 R done l /\ refuses R bad.

(** A chat line. *)
Inductive chat_left (o : chat) : bytes -> chat -> Prop :=
| cl_plain data : ~ starts_with (B "<") data -> refuses (str_read dec) data -> chat_left o data o
| cl_name d : (forall n t, chat_parts d n t -> refuses (name_read dec) n) -> chat_left o (B "<" ++ d) o
| cl_text d n t name : chat_parts d n t -> name_read dec n name -> refuses (str_read dec) t ->
    chat_left o (B "<" ++ d) (mk_chat name (ch_text o)).
(** A private message. *)
Inductive pm_left (o : pm) (data : bytes) : pm -> Prop :=
| pl_to : part_refused (B " From: ") (name_read dec) data -> pm_left o data o
| pl_from t r to : first (B " From: ") data t r -> name_read dec t to -> part_refused (B " $<") (name_read dec) r ->
    pm_left o data (mk_pm to (pm_from o) (pm_name o) (pm_text o))
| pl_name t r f r' to from : first (B " From: ") data t r -> name_read dec t to -> first (B " $<") r f r' -> name_read dec f from ->
    part_refused (B "> ") (name_read dec) r' -> pm_left o data (mk_pm to from (pm_name o) (pm_text o))
| pl_text t r f r' n x to from name : first (B " From: ") data t r -> name_read dec t to -> first (B " $<") r f r' -> name_read dec f from ->
    first (B "> ") r' n x -> name_read dec n name -> refuses (str_read dec) x -> pm_left o data (mk_pm to from name (pm_text o)).
(** A chat line for one user. *)
Inductive mcto_left (o : mcto) (data : bytes) : mcto -> Prop :=
| ml_to : part_refused (B " $") (name_read dec) data -> mcto_left o data o
| ml_from t r to : first (B " $") data t r -> name_read dec t to -> part_refused (B " ") (name_read dec) r ->
    mcto_left o data (mk_mcto to (mt_from o) (mt_text o))
| ml_text t r f x to from : first (B " $") data t r -> name_read dec t to -> first (B " ") r f x -> name_read dec f from ->
    refuses (str_read dec) x -> mcto_left o data (mk_mcto to from (mt_text o)).

(** A command for the menu. *)
Inductive ucmd_left (o : ucmd) (data : bytes) : ucmd -> Prop :=
| ul_type core : trimmed data core -> part_refused (B " ") int_read core -> ucmd_left o data o
| ul_context core a r typ : trimmed data core -> first (B " ") core a r -> int_read a typ -> refuses leading r ->
    ucmd_left o data (mk_ucmd typ (uc_context o) (uc_path o) (uc_command o))
| ul_raw core a r b v typ ctx : trimmed data core -> first (B " ") core a r -> int_read a typ -> first (B " ") r b v -> leading b ctx ->
    (forall p c, first (B "$") v p c -> p = []) -> ucmd_left o data (mk_ucmd typ ctx (uc_path o) (uc_command o))
| ul_path core a r b v p c k ps typ ctx path : trimmed data core -> first (B " ") core a r -> int_read a typ -> first (B " ") r b v -> leading b ctx ->
    first (B "$") v (p ++ repeat " "%byte k) c -> p ++ repeat " "%byte k <> [] -> ~ ends_in " " p ->
    split_on (B "\") p ps -> list_left (str_read dec) (filled ps) path -> ucmd_left o data (mk_ucmd typ ctx path (uc_command o))
| ul_command core a r b v p c k ps typ ctx path : trimmed data core -> first (B " ") core a r -> int_read a typ -> first (B " ") r b v -> leading b ctx ->
    first (B "$") v (p ++ repeat " "%byte k) c -> p ++ repeat " "%byte k <> [] -> ~ ends_in " " p ->
    split_on (B "\") p ps -> Forall2 (str_read dec) (filled ps) path -> refuses (str_read dec) c ->
    ucmd_left o data (mk_ucmd typ ctx path (uc_command o)).

(** A connection request. *)
Inductive ctm_left (o : ctm) (data : bytes) : ctm -> Prop :=
| ctl_targ : part_refused (B " ") (name_read dec) data -> ctm_left o data o
| ctl_src t r targ addr s : first (B " ") data t r -> name_read dec t targ -> first (B " ") r addr s -> refuses (name_read dec) s ->
    ctm_left o data (mk_ctm targ (ct_src o) (ct_address o) (ct_kind o) (ct_secure o)).
(** A request to connect back. *)
Inductive rctm_left (o : rctm) (data : bytes) : rctm -> Prop :=
| rl_from : part_refused (B " ") (name_read dec) data -> rctm_left o data o
| rl_to f t from : first (B " ") data f t -> name_read dec f from -> refuses (name_read dec) t -> rctm_left o data (mk_rctm from (rc_to o)).

(** A request for a file. *)
Inductive adcget_left (o : adcget) (data : bytes) : adcget -> Prop :=
| agl_type : part_refused (B " ") (str_read dec) data -> adcget_left o data o
| agl_ident t r typ : first (B " ") data t r -> str_read dec t typ -> part_refused (B " ") (str_read dec) r ->
    adcget_left o data (mk_adcget typ (ag_ident o) (ag_start o) (ag_length o) (ag_compressed o) (ag_downloaded o))
| agl_no_start t r i r2 typ ident : first (B " ") data t r -> str_read dec t typ -> first (B " ") r i r2 -> str_read dec i ident ->
    ~ In " "%byte r2 -> adcget_left o data (mk_adcget typ ident (ag_start o) (ag_length o) (ag_compressed o) (ag_downloaded o))
| agl_start t r i r2 s r3 typ ident : first (B " ") data t r -> str_read dec t typ -> first (B " ") r i r2 -> str_read dec i ident ->
    first (B " ") r2 s r3 -> refuses uint_read s -> adcget_left o data (mk_adcget typ ident 0 (ag_length o) (ag_compressed o) (ag_downloaded o))
| agl_length t r i r2 s r3 l fs typ ident start : first (B " ") data t r -> str_read dec t typ -> first (B " ") r i r2 -> str_read dec i ident ->
    first (B " ") r2 s r3 -> uint_read s start -> split_on (B " ") r3 (l :: fs) -> l <> B "-1" -> refuses uint_read l ->
    adcget_left o data (mk_adcget typ ident start (ag_length o) (ag_compressed o) (ag_downloaded o))
| agl_flag t r i r2 s r3 l fs typ ident start len done x rest z db : first (B " ") data t r -> str_read dec t typ -> first (B " ") r i r2 -> str_read dec i ident ->
    first (B " ") r2 s r3 -> uint_read s start -> split_on (B " ") r3 (l :: fs) ->
    (l = B "-1" /\ len = (-1)%Z \/ exists n, uint_read l n /\ len = wrapped64 n) ->
    fs = done ++ (B "DB" ++ x) :: rest -> flags_read done z db -> refuses uint_read x ->
    adcget_left o data (mk_adcget typ ident start len (ag_compressed o || z) (match db with Some n => Some n | None => ag_downloaded o end)).
(** The answer to such a request. *)
Inductive adcsnd_left (o : adcsnd) (data : bytes) : adcsnd -> Prop :=
| asl_type : part_refused (B " ") (str_read dec) data -> adcsnd_left o data o
| asl_ident t r typ : first (B " ") data t r -> str_read dec t typ -> part_refused (B " ") (str_read dec) r ->
    adcsnd_left o data (mk_adcsnd typ (as_ident o) (as_start o) (as_length o) (as_compressed o))
| asl_no_start t r i r2 typ ident : first (B " ") data t r -> str_read dec t typ -> first (B " ") r i r2 -> str_read dec i ident ->
    ~ In " "%byte r2 -> adcsnd_left o data (mk_adcsnd typ ident (as_start o) (as_length o) (as_compressed o))
| asl_start t r i r2 s r3 typ ident : first (B " ") data t r -> str_read dec t typ -> first (B " ") r i r2 -> str_read dec i ident ->
    first (B " ") r2 s r3 -> refuses uint_read s -> adcsnd_left o data (mk_adcsnd typ ident 0 (as_length o) (as_compressed o))
| asl_length t r i r2 s r3 l fs typ ident start : first (B " ") data t r -> str_read dec t typ -> first (B " ") r i r2 -> str_read dec i ident ->
    first (B " ") r2 s r3 -> uint_read s start -> split_on (B " ") r3 (l :: fs) -> refuses uint_read l ->
    adcsnd_left o data (mk_adcsnd typ ident start 0 (as_compressed o))
| asl_flag t r i r2 s r3 l x typ ident start len : first (B " ") data t r -> str_read dec t typ -> first (B " ") r i r2 -> str_read dec i ident ->
    first (B " ") r2 s r3 -> uint_read s start -> first (B " ") r3 l x -> uint_read l len -> x <> [] -> x <> B "ZL1" ->
    adcsnd_left o data (mk_adcsnd typ ident start len (as_compressed o)).
(** The direction of a transfer. *)
Inductive direction_left (o : direction) (data : bytes) : direction -> Prop :=
| dl_dir : ~ starts_with (B "Upload ") data -> ~ starts_with (B "Download ") data -> direction_left o data o
| dl_number (up : bool) x : data = (if up then B "Upload" else B "Download") ++ B " " ++ x ->
    (forall n, uint_read x n -> ~ (1 <= n <= 32767)%N) -> direction_left o data (mk_direction up (di_number o)).

(** Hub information: the fields before number [k], which can not be read. *)
Inductive hubinfo_left (o : hubinfo) (data : bytes) : hubinfo -> Prop :=
| hil fs k f name host desc i1 i2 i3 i4 soft vers owner : split_max "$" 13 data fs -> nth_error fs k = Some f ->
    In k [0; 2; 8; 9] /\ refuses (str_read dec) f \/ In k [3; 4; 5; 6] /\ refuses int_read f ->
    field (firstn k fs) 0 (str_read dec) (hi_name o) name -> field (firstn k fs) 1 eq (hi_host o) host ->
    field (firstn k fs) 2 (str_read dec) (hi_desc o) desc ->
    field (firstn k fs) 3 int_read (hi_i1 o) i1 -> field (firstn k fs) 4 int_read (hi_i2 o) i2 ->
    field (firstn k fs) 5 int_read (hi_i3 o) i3 -> field (firstn k fs) 6 int_read (hi_i4 o) i4 ->
    field (firstn k fs) 7 (software_over (hi_vers o)) (hi_soft o, hi_vers o) (soft, vers) ->
    field (firstn k fs) 8 (str_read dec) (hi_owner o) owner ->
    hubinfo_left o data (mk_hubinfo name host desc i1 i2 i3 i4 soft vers owner (hi_state o) (hi_encoding o)).

(** The sender of a search. *)
Definition asker (o : search) (who addr user : bytes) : Prop :=
  (exists n, who = B "Hub:" ++ n /\ name_read dec n user /\ addr = se_address o) \/
  (~ starts_with (B "Hub:") who /\ addr = who /\ user = se_user o).
(** Five fields. *)
Definition asked (r f0 f1 f2 f3 f4 : bytes) : Prop :=
  r = f0 ++ B "?" ++ f1 ++ B "?" ++ f2 ++ B "?" ++ f3 ++ B "?" ++ f4 /\ Forall (fun f => ~ In "?"%byte f) [f0; f1; f2; f3].
(** The size in a search; an empty one keeps the old. *)
Definition size_over (o : search) (rs : bool) (f2 : bytes) (rs' : bool) (size : N) : Prop :=
  f2 = [] /\ rs' = rs /\ size = se_size o \/ f2 <> [] /\ size_read rs f2 rs' size.
(** A search. *)
Inductive search_left (o : search) (data : bytes) : search -> Prop :=
| sl_who : (forall who r addr user, first (B " ") data who r -> ~ asker o who addr user) -> search_left o data o
| sl_fields who r addr user : first (B " ") data who r -> asker o who addr user -> (forall f0 f1 f2 f3 f4, ~ asked r f0 f1 f2 f3 f4) ->
    search_left o data (mk_search addr user (se_restricted o) (se_ismax o) (se_size o) (se_dtype o) (se_pattern o) (se_tth o))
| sl_restricted who r addr user f0 f1 f2 f3 f4 : first (B " ") data who r -> asker o who addr user -> asked r f0 f1 f2 f3 f4 ->
    (forall b, f0 <> flag_text b) ->
    search_left o data (mk_search addr user false (se_ismax o) (se_size o) (se_dtype o) (se_pattern o) (se_tth o))
| sl_max who r addr user rs f1 f2 f3 f4 : first (B " ") data who r -> asker o who addr user -> asked r (flag_text rs) f1 f2 f3 f4 ->
    (forall b, f1 <> flag_text b) ->
    search_left o data (mk_search addr user rs false (se_size o) (se_dtype o) (se_pattern o) (se_tth o))
| sl_size who r addr user rs mx f2 f3 f4 : first (B " ") data who r -> asker o who addr user -> asked r (flag_text rs) (flag_text mx) f2 f3 f4 ->
    (forall rs' size, ~ size_over o rs f2 rs' size) ->
    search_left o data (mk_search addr user rs mx (match f2 with c :: _ => if beq c "-" then se_size o else 0%N | [] => 0%N end) (se_dtype o) (se_pattern o) (se_tth o))
| sl_type who r addr user rs mx rs' size f2 f3 f4 : first (B " ") data who r -> asker o who addr user -> asked r (flag_text rs) (flag_text mx) f2 f3 f4 ->
    size_over o rs f2 rs' size -> refuses uint_read f3 ->
    search_left o data (mk_search addr user rs' mx size (se_dtype o) (se_pattern o) (se_tth o))
| sl_text who r addr user rs mx rs' size f2 f3 f4 typ : first (B " ") data who r -> asker o who addr user -> asked r (flag_text rs) (flag_text mx) f2 f3 f4 ->
    size_over o rs f2 rs' size -> uint_read f3 typ -> (if (typ =? 9)%N then ~ starts_with (B "TTH:") f4 else refuses (str_read dec) f4) ->
    search_left o data (mk_search addr user rs' mx size typ (se_pattern o) (se_tth o))
| sl_hash who r addr user rs mx rs' size f2 f3 s s' h : first (B " ") data who r -> asker o who addr user -> asked r (flag_text rs) (flag_text mx) f2 f3 (B "TTH:" ++ s) ->
    size_over o rs f2 rs' size -> uint_read f3 9 -> without_suffix (B "$") s s' -> refuses hash_read s' -> ~ starts_with_symbols 40 (unbroken s') ->
    hash_left s' (repeat x00 24) h ->
    search_left o data (mk_search addr user rs' mx size 9 (se_pattern o) (Some h)).

(** Path and slots of a result, and what follows them. *)
Definition result_parts (x r2 p : bytes) (isdir : bool) (size : N) (slots r3 : bytes) : Prop :=
  (isdir = true /\ size = 0%N /\ r3 = r2 /\ (exists c, x = p ++ [c] ++ slots /\ ~ slot_char c /\ Forall slot_char slots /\ In "/"%byte slots)) \/
  (isdir = false /\ ~ slots_like x /\ p = x /\ exists ss s, first [x05] r2 ss r3 /\ first (B " ") ss s slots /\ uint_read s size).
(** What is known about a result whose hub can not be read. *)
Inductive hub_left (o : option bytes) (s : bytes) : option bytes -> Prop :=
| hl_short : starts_with (B "TTH:") s -> (forall t rest, s = B "TTH:" ++ t ++ B " (" ++ rest -> length t <> 39) -> hub_left o s o
| hl_hash t rest h : s = B "TTH:" ++ t ++ B " (" ++ rest -> length t = 39 -> refuses hash_read t -> hash_left t (repeat x00 24) h -> hub_left o s (Some h)
| hl_name : ~ starts_with (B "TTH:") s -> part_refused (B " (") (str_read dec) s -> hub_left o s o.
(** A search result. *)
Inductive sr_left (o : sr) (data : bytes) : sr -> Prop :=
| srl_from : part_refused (B " ") (name_read dec) data -> sr_left o data o
| srl_sep n r1 from : first (B " ") data n r1 -> name_read dec n from -> ~ In x05 r1 ->
    sr_left o data (mk_sr from (sr_path o) (sr_isdir o) (sr_size o) (sr_free o) (sr_total o) (sr_hubname o) (sr_tth o) (sr_hubaddr o) (sr_to o))
| srl_no_size n r1 from x r2 : first (B " ") data n r1 -> name_read dec n from -> first [x05] r1 x r2 -> ~ slots_like x ->
    (forall ss r3, first [x05] r2 ss r3 -> ~ In " "%byte ss) ->
    sr_left o data (mk_sr from (sr_path o) false (sr_size o) (sr_free o) (sr_total o) (sr_hubname o) (sr_tth o) (sr_hubaddr o) (sr_to o))
| srl_size n r1 from x r2 ss r3 s slots : first (B " ") data n r1 -> name_read dec n from -> first [x05] r1 x r2 -> ~ slots_like x ->
    first [x05] r2 ss r3 -> first (B " ") ss s slots -> refuses uint_read s ->
    sr_left o data (mk_sr from (sr_path o) false 0 (sr_free o) (sr_total o) (sr_hubname o) (sr_tth o) (sr_hubaddr o) (sr_to o))
| srl_path n r1 from x r2 p isdir size slots r3 : first (B " ") data n r1 -> name_read dec n from -> first [x05] r1 x r2 ->
    result_parts x r2 p isdir size slots r3 -> refuses (str_read dec) p ->
    sr_left o data (mk_sr from (sr_path o) isdir size (sr_free o) (sr_total o) (sr_hubname o) (sr_tth o) (sr_hubaddr o) (sr_to o))
| srl_slots n r1 from x r2 p isdir size slots r3 path : first (B " ") data n r1 -> name_read dec n from -> first [x05] r1 x r2 ->
    result_parts x r2 p isdir size slots r3 -> path_read dec p path -> ~ In "/"%byte slots ->
    sr_left o data (mk_sr from path isdir size (sr_free o) (sr_total o) (sr_hubname o) (sr_tth o) (sr_hubaddr o) (sr_to o))
| srl_free n r1 from x r2 p isdir size slots r3 path f t z : first (B " ") data n r1 -> name_read dec n from -> first [x05] r1 x r2 ->
    result_parts x r2 p isdir size slots r3 -> path_read dec p path -> first (B "/") slots f t -> refuses int_read f -> int_left f z ->
    sr_left o data (mk_sr from path isdir size z (sr_total o) (sr_hubname o) (sr_tth o) (sr_hubaddr o) (sr_to o))
| srl_total n r1 from x r2 p isdir size slots r3 path f t free z : first (B " ") data n r1 -> name_read dec n from -> first [x05] r1 x r2 ->
    result_parts x r2 p isdir size slots r3 -> path_read dec p path -> first (B "/") slots f t -> int_read f free -> refuses int_read t -> int_left t z ->
    sr_left o data (mk_sr from path isdir size free z (sr_hubname o) (sr_tth o) (sr_hubaddr o) (sr_to o))
| srl_hub n r1 from x r2 p isdir size slots r3 path f t free total tth : first (B " ") data n r1 -> name_read dec n from -> first [x05] r1 x r2 ->
    result_parts x r2 p isdir size slots r3 -> path_read dec p path -> first (B "/") slots f t -> int_read f free -> int_read t total ->
    hub_left (sr_tth o) r3 tth ->
    sr_left o data (mk_sr from path isdir size free total (sr_hubname o) tth (sr_hubaddr o) (sr_to o))
| srl_address n r1 from x r2 p isdir size slots r3 path f t free total hub tth rest : first (B " ") data n r1 -> name_read dec n from -> first [x05] r1 x r2 ->
    result_parts x r2 p isdir size slots r3 -> path_read dec p path -> first (B "/") slots f t -> int_read f free -> int_read t total ->
    hub_read dec r3 hub tth rest -> ~ In ")"%byte rest ->
    sr_left o data (mk_sr from path isdir size free total (match tth with Some _ => sr_hubname o | None => hub end)
      (match tth with Some h => Some h | None => sr_tth o end) (sr_hubaddr o) (sr_to o))
| srl_target n r1 from x r2 p isdir size slots r3 path f t free total hub tth rest addr r4 : first (B " ") data n r1 -> name_read dec n from -> first [x05] r1 x r2 ->
    result_parts x r2 p isdir size slots r3 -> path_read dec p path -> first (B "/") slots f t -> int_read f free -> int_read t total ->
    hub_read dec r3 hub tth rest -> first (B ")") rest addr r4 -> refuses (target_read dec) r4 ->
    sr_left o data (mk_sr from path isdir size free total (match tth with Some _ => sr_hubname o | None => hub end)
      (match tth with Some h => Some h | None => sr_tth o end) addr (sr_to o)).
(** The short searches: no hash of 39 bytes with a space behind, a wrong hash, a wrong name. *)
Inductive sa_left (o : sa) (data : bytes) : sa -> Prop :=
| sal_sep : (forall t a, data = t ++ B " " ++ a -> length t <> 39) -> sa_left o data o
| sal_hash t a h : data = t ++ B " " ++ a -> length t = 39 -> refuses hash_read t -> hash_left t (sa_tth o) h -> sa_left o data (mk_sa h (sa_address o)).
(** The same for a user. *)
Inductive sp_left (o : sp) (data : bytes) : sp -> Prop :=
| spl_sep : (forall t a, data = t ++ B " " ++ a -> length t <> 39) -> sp_left o data o
| spl_hash t a h : data = t ++ B " " ++ a -> length t = 39 -> refuses hash_read t -> hash_left t (sp_tth o) h -> sp_left o data (mk_sp h (sp_user o))
| spl_user t a h : data = t ++ B " " ++ a -> length t = 39 -> hash_read t h -> refuses (name_read dec) a -> sp_left o data (mk_sp h (sp_user o)).

(** What a field of a tag that can not be read does to the numbers of hubs (normal, registered,
    operator) and slots. *)
Inductive item_left : bytes -> Z * Z * Z * Z -> Z * Z * Z * Z -> Prop :=
| il_hub c s z n r o k : letter c = "H"%byte -> ~ In "/"%byte s -> int_left s z -> item_left (c :: B ":" ++ s) (n, r, o, k) (z, r, o, k)
| il_normal c s1 s2 s3 z n r o k : letter c = "H"%byte -> split_on (B "/") (s1 ++ B "/" ++ s2 ++ B "/" ++ s3) [s1; s2; s3] ->
    refuses int_read s1 -> int_left s1 z -> item_left (c :: B ":" ++ s1 ++ B "/" ++ s2 ++ B "/" ++ s3) (n, r, o, k) (z, r, o, k)
| il_registered c s1 s2 s3 x z n r o k : letter c = "H"%byte -> split_on (B "/") (s1 ++ B "/" ++ s2 ++ B "/" ++ s3) [s1; s2; s3] ->
    int_read s1 x -> refuses int_read s2 -> int_left s2 z -> item_left (c :: B ":" ++ s1 ++ B "/" ++ s2 ++ B "/" ++ s3) (n, r, o, k) (x, z, o, k)
| il_operator c s1 s2 s3 x y z n r o k : letter c = "H"%byte -> split_on (B "/") (s1 ++ B "/" ++ s2 ++ B "/" ++ s3) [s1; s2; s3] ->
    int_read s1 x -> int_read s2 y -> int_left s3 z -> item_left (c :: B ":" ++ s1 ++ B "/" ++ s2 ++ B "/" ++ s3) (n, r, o, k) (x, y, z, k)
| il_hubs c s ps v : letter c = "H"%byte -> split_on (B "/") s ps -> length ps <> 1 -> length ps <> 3 -> item_left (c :: B ":" ++ s) v v
| il_slots c s z n r o k : letter c = "S"%byte -> int_left s z -> item_left (c :: B ":" ++ s) (n, r, o, k) (n, r, o, z)
| il_name f v : ~ In ":"%byte f \/ starts_with (B ":") f -> item_left f v v.
(** The description and the tag. *)
Inductive desc_read (o : myinfo) : bytes -> bool -> bytes -> bytes -> byte -> Z * Z * Z * Z -> list (bytes * bytes) -> bytes -> Prop :=
| dr_plain f0 : ~ In "<"%byte f0 ->
    desc_read o f0 false (mi_client o) (mi_version o) x00 (mi_hubs_normal o, mi_hubs_reg o, mi_hubs_op o, mi_slots o) (mi_extra o) f0
| dr_tag d tag tag' c t fs is extra : ~ In "<"%byte tag -> tag <> [] -> without_suffix (B ">") tag tag' -> tag_split tag' c t ->
    split_on (B ",") t fs -> items_read true fs is -> extras_read is extra ->
    desc_read o (d ++ B "<" ++ tag) true (last_of sel_client c is) (last_of sel_version (mi_version o) is) (last_of sel_mode x00 is)
      (last_of sel_normal (mi_hubs_normal o) is, last_of sel_reg (mi_hubs_reg o) is, last_of sel_op (mi_hubs_op o) is, last_of sel_slots (mi_slots o) is) extra d.
(** A message with these values. *)
Definition info_with (o : myinfo) (name desc client version : bytes) (mode : byte) (v : Z * Z * Z * Z) (extra : list (bytes * bytes)) (conn : bytes) (flag : byte) : myinfo :=
  let '(hn, hr, ho, slots) := v in
  mk_myinfo name desc client version mode hn hr ho slots extra conn flag (mi_email o) (mi_share o).
(** User information. *)
Inductive myinfo_left (o : myinfo) : bytes -> myinfo -> Prop :=
| mil_name data : (forall n r, data = B "$ALL " ++ n ++ B " " ++ r -> ~ In " "%byte n -> refuses (name_read dec) n) -> myinfo_left o data o
| mil_fields n r name fs : ~ In " "%byte n -> name_read dec n name -> split_on (B "$") r fs -> length fs <> 6 ->
    myinfo_left o (B "$ALL " ++ n ++ B " " ++ r) (set_mi_name o name)
| mil_empty_tag n name d f1 f2 f3 f4 f5 : ~ In " "%byte n -> name_read dec n name ->
    Forall (fun f => ~ In "$"%byte f) [d; f1; f2; f3; f4; f5] ->
    myinfo_left o (B "$ALL " ++ n ++ B " " ++ sep_by (B "$") [d ++ B "<"; f1; f2; f3; f4; f5]) (set_mi_mode (set_mi_name o name) x00)
| mil_tag n name d tag tag' c t fs done bad rest is v v' extra f1 f2 f3 f4 f5 : ~ In " "%byte n -> name_read dec n name ->
    Forall (fun f => ~ In "$"%byte f) [d ++ B "<" ++ tag; f1; f2; f3; f4; f5] ->
    ~ In "<"%byte tag -> tag <> [] -> without_suffix (B ">") tag tag' -> tag_split tag' c t -> split_on (B ",") t fs ->
    fs = done ++ bad :: rest -> items_read true done is -> refuses (item_read (match done with [] => true | _ => false end)) bad ->
    extras_read is extra ->
    v = (last_of sel_normal (mi_hubs_normal o) is, last_of sel_reg (mi_hubs_reg o) is, last_of sel_op (mi_hubs_op o) is, last_of sel_slots (mi_slots o) is) ->
    item_left bad v v' ->
    myinfo_left o (B "$ALL " ++ n ++ B " " ++ sep_by (B "$") [d ++ B "<" ++ tag; f1; f2; f3; f4; f5])
      (info_with o name (mi_desc o) (mi_client o) (last_of sel_version (mi_version o) is) (last_of sel_mode x00 is) v' extra (mi_conn o) (mi_flag o))
| mil_desc n name f0 hastag client version mode v extra d f1 f2 f3 f4 f5 : ~ In " "%byte n -> name_read dec n name ->
    Forall (fun f => ~ In "$"%byte f) [f0; f1; f2; f3; f4; f5] -> desc_read o f0 hastag client version mode v extra d -> refuses (str_read dec) d ->
    myinfo_left o (B "$ALL " ++ n ++ B " " ++ sep_by (B "$") [f0; f1; f2; f3; f4; f5])
      (info_with o name (mi_desc o) client version mode v extra (mi_conn o) (mi_flag o))
| mil_mode n name f0 hastag client version mode v extra d desc f1 f2 f3 f4 f5 : ~ In " "%byte n -> name_read dec n name ->
    Forall (fun f => ~ In "$"%byte f) [f0; f1; f2; f3; f4; f5] -> desc_read o f0 hastag client version mode v extra d -> str_read dec d desc -> length f1 <> 1 ->
    myinfo_left o (B "$ALL " ++ n ++ B " " ++ sep_by (B "$") [f0; f1; f2; f3; f4; f5])
      (info_with o name desc client version mode v extra (mi_conn o) (mi_flag o))
| mil_conn n name f0 hastag client version mode v extra d desc md c flag f3 f4 f5 : ~ In " "%byte n -> name_read dec n name ->
    Forall (fun f => ~ In "$"%byte f) [f0; [md]; c ++ [flag]; f3; f4; f5] -> desc_read o f0 hastag client version mode v extra d -> str_read dec d desc ->
    refuses (str_read dec) c ->
    myinfo_left o (B "$ALL " ++ n ++ B " " ++ sep_by (B "$") [f0; [md]; c ++ [flag]; f3; f4; f5])
      (info_with o name desc client version (if hastag then mode else if beq md " " then x00 else md) v extra (mi_conn o) flag)
| mil_email n name f0 hastag client version mode v extra d desc md f2 conn flag f3 f4 f5 : ~ In " "%byte n -> name_read dec n name ->
    Forall (fun f => ~ In "$"%byte f) [f0; [md]; f2; f3; f4; f5] -> desc_read o f0 hastag client version mode v extra d -> str_read dec d desc ->
    (f2 = [] /\ flag = mi_flag o /\ conn = mi_conn o \/ exists c, f2 = c ++ [flag] /\ str_read dec c conn) -> refuses (str_read dec) f3 ->
    myinfo_left o (B "$ALL " ++ n ++ B " " ++ sep_by (B "$") [f0; [md]; f2; f3; f4; f5])
      (info_with o name desc client version (if hastag then mode else if beq md " " then x00 else md) v extra conn flag).

(** [left_by o data m]: decoding [data] into [o] fails, and leaves [m].  The types without a case
    never fail. *)
Inductive left_by : msg -> bytes -> msg -> Prop :=
| lb_name k s data : refuses (name_read dec) data -> left_by (MName k s) data (MName k s)
| lb_string k s data : refuses (str_read dec) data -> left_by (MString k s) data (MString k s)
| lb_noargs k data : data <> [] -> left_by (MNoArgs k) data (MNoArgs k)
| lb_err k e data : refuses (str_read dec) data -> left_by (MErr k e) data (MErr k e)
| lb_names k l data : refuses (names_read dec) data -> left_by (MNames k l) data (MNames k l)
| lb_chat o data m : chat_left o data m -> left_by (MChat o) data (MChat m)
| lb_pm o data m : pm_left o data m -> left_by (MPm o) data (MPm m)
| lb_mcto o data m : mcto_left o data m -> left_by (MMCTo o) data (MMCTo m)
| lb_ucmd o data m : ucmd_left o data m -> left_by (MUserCommand o) data (MUserCommand m)
| lb_ctm o data m : ctm_left o data m -> left_by (MCtm o) data (MCtm m)
| lb_rctm o data m : rctm_left o data m -> left_by (MRevCtm o) data (MRevCtm m)
| lb_adcget o data m : adcget_left o data m -> left_by (MAdcGet o) data (MAdcGet m)
| lb_adcsnd o data m : adcsnd_left o data m -> left_by (MAdcSnd o) data (MAdcSnd m)
| lb_direction o data m : direction_left o data m -> left_by (MDirection o) data (MDirection m)
| lb_hubinfo o data m : hubinfo_left o data m -> left_by (MHubInfo o) data (MHubInfo m)
| lb_search o data m : search_left o data m -> left_by (MSearch o) data (MSearch m)
| lb_sr o data m : sr_left o data m -> left_by (MSR o) data (MSR m)
| lb_sa o data m : sa_left o data m -> left_by (MSA o) data (MSA m)
| lb_sp o data m : sp_left o data m -> left_by (MSP o) data (MSP m)
| lb_myinfo o data m : myinfo_left o data m -> left_by (MMyInfo o) data (MMyInfo m)
| lb_userip o data d1 d2 ps l : without_suffix [x0d] data d1 -> without_suffix (B "$$") d1 d2 -> split_on (B "$$") d2 ps ->
    list_left (userip_entry dec) ps l -> left_by (MUserIP o) data (MUserIP l).
End Left.
