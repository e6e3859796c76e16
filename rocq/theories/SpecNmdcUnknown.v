(** Specification of when decoding an NMDC message reports an unknown encoding, and with which text. *)
From Verif Require Import Base SpecText SpecHash SpecNmdc SpecRead SpecFrame SpecReuse SpecNmdcLeft NmdcText NmdcChat NmdcHub NmdcFiles NmdcUser NmdcMessage.

Section Unknown.
Variable dec : option (bytes -> option bytes).

(** [t] is what the decoder makes of the text, and not UTF-8. *)
Definition text_unknown (raw t : bytes) : Prop := exists u, unescaped raw u /\ encodes_to dec u t /\ ~ utf8_text t.
(** The type String. *)
Definition str_unknown (raw t : bytes) : Prop := ~ In x00 raw /\ text_unknown raw t.
(** The type Name. *)
Definition name_unknown (raw t : bytes) : Prop :=
  (N.of_nat (length raw) <= 256)%N /\
  (~ In "$"%byte raw /\ ~ In x00 raw /\ ~ In x0d raw /\ ~ In x0a raw /\ ~ In x09 raw) /\ text_unknown raw t.
(** An element of a list, behind elements that can be read. *)
Definition list_unknown {A} (R : bytes -> A -> Prop) (U : bytes -> bytes -> Prop) (ps : list bytes) (t : bytes) : Prop :=
  exists done bad rest l, ps = done ++ bad :: rest /\ Forall2 R done l /\ U bad t.

(** A chat line: the whole line, the name, the text. *)
Inductive chat_unknown : bytes -> bytes -> Prop :=
| xc_plain data t : ~ starts_with (B "<") data -> str_unknown data t -> chat_unknown data t
| xc_name d n x t : chat_parts d n x -> name_unknown n t -> chat_unknown (B "<" ++ d) t
| xc_text d n x name t : chat_parts d n x -> name_read dec n name -> str_unknown x t -> chat_unknown (B "<" ++ d) t.
(** A private message. *)
Inductive pm_unknown (data t : bytes) : Prop :=
| xp_to a r : first (B " From: ") data a r -> name_unknown a t -> pm_unknown data t
| xp_from a r f r' to : first (B " From: ") data a r -> name_read dec a to -> first (B " $<") r f r' -> name_unknown f t -> pm_unknown data t
| xp_name a r f r' n x to from : first (B " From: ") data a r -> name_read dec a to -> first (B " $<") r f r' -> name_read dec f from ->
    first (B "> ") r' n x -> name_unknown n t -> pm_unknown data t
| xp_text a r f r' n x to from name : first (B " From: ") data a r -> name_read dec a to -> first (B " $<") r f r' -> name_read dec f from ->
    first (B "> ") r' n x -> name_read dec n name -> str_unknown x t -> pm_unknown data t.
(** A chat line for one user. *)
Inductive mcto_unknown (data t : bytes) : Prop :=
| xm_to a r : first (B " $") data a r -> name_unknown a t -> mcto_unknown data t
| xm_from a r f x to : first (B " $") data a r -> name_read dec a to -> first (B " ") r f x -> name_unknown f t -> mcto_unknown data t
| xm_text a r f x to from : first (B " $") data a r -> name_read dec a to -> first (B " ") r f x -> name_read dec f from -> str_unknown x t ->
    mcto_unknown data t.
(** A command for the menu: only the command itself, never the path. *)
Inductive ucmd_unknown (data t : bytes) : Prop :=
| xu_command core a r b v p c k ps typ ctx path : trimmed data core -> first (B " ") core a r -> int_read a typ -> first (B " ") r b v -> leading b ctx ->
    first (B "$") v (p ++ repeat " "%byte k) c -> p ++ repeat " "%byte k <> [] -> ~ ends_in " " p ->
    split_on (B "\") p ps -> Forall2 (str_read dec) (filled ps) path -> str_unknown c t -> ucmd_unknown data t.
(** A connection request: the target, and the source if there is one. *)
Inductive ctm_unknown (data t : bytes) : Prop :=
| xt_targ a r : first (B " ") data a r -> name_unknown a t -> ctm_unknown data t
| xt_src a r targ addr s : first (B " ") data a r -> name_read dec a targ -> first (B " ") r addr s -> name_unknown s t -> ctm_unknown data t.
(** A request to connect back. *)
Inductive rctm_unknown (data t : bytes) : Prop :=
| xr_from f r : first (B " ") data f r -> name_unknown f t -> rctm_unknown data t
| xr_to f r from : first (B " ") data f r -> name_read dec f from -> name_unknown r t -> rctm_unknown data t.
(** A request for a file and the answer to it: only the type, never the identifier. *)
Definition file_unknown (data t : bytes) : Prop := exists a r, first (B " ") data a r /\ str_unknown a t.
(** Hub information: name, description, owner or state, behind fields that can be read. *)
Definition hubinfo_unknown (data t : bytes) : Prop :=
  exists fs k f, split_max "$" 13 data fs /\ nth_error fs k = Some f /\ In k [0; 2; 8; 9] /\ str_unknown f t /\
    (forall j g, j < k -> nth_error fs j = Some g -> (In j [0; 2; 8] -> exists s, str_read dec g s) /\ (In j [3; 4; 5; 6] -> exists z, int_read g z)).
(** A search: the user in front, or the words if the search is not for a hash. *)
Inductive search_unknown (data t : bytes) : Prop :=
| xs_user n r : first (B " ") data (B "Hub:" ++ n) r -> name_unknown n t -> search_unknown data t
| xs_words who r rs mx f2 f3 f4 typ : first (B " ") data who r -> (forall n, who = B "Hub:" ++ n -> exists user, name_read dec n user) ->
    asked r (flag_text rs) (flag_text mx) f2 f3 f4 -> (f2 <> [] -> exists rs' size, size_read rs f2 rs' size) ->
    uint_read f3 typ -> typ <> 9%N -> str_unknown f4 t -> search_unknown data t.
(** A result: the sender, the path, the name of the hub, the target. *)
Inductive sr_unknown (data t : bytes) : Prop :=
| xr_sender n r : first (B " ") data n r -> name_unknown n t -> sr_unknown data t
| xr_path n r1 from x r2 p isdir size slots r3 : first (B " ") data n r1 -> name_read dec n from -> first [x05] r1 x r2 ->
    result_parts x r2 p isdir size slots r3 -> str_unknown p t -> sr_unknown data t
| xr_hub n r1 from x r2 p isdir size slots r3 path f g free total h rest : first (B " ") data n r1 -> name_read dec n from -> first [x05] r1 x r2 ->
    result_parts x r2 p isdir size slots r3 -> path_read dec p path -> first (B "/") slots f g -> int_read f free -> int_read g total ->
    ~ starts_with (B "TTH:") r3 -> first (B " (") r3 h rest -> str_unknown h t -> sr_unknown data t
| xr_target n r1 from x r2 p isdir size slots r3 path f g free total hub tth rest addr to : first (B " ") data n r1 -> name_read dec n from -> first [x05] r1 x r2 ->
    result_parts x r2 p isdir size slots r3 -> path_read dec p path -> first (B "/") slots f g -> int_read f free -> int_read g total ->
    hub_read dec r3 hub tth rest -> first (B ")") rest addr ([x05] ++ to) -> to <> [] -> name_unknown to t -> sr_unknown data t.
(** A short search of a passive user. *)
Definition sp_unknown (data t : bytes) : Prop := exists s a h, data = s ++ B " " ++ a /\ length s = 39 /\ hash_read s h /\ name_unknown a t.
(** User information: name, description, connection, address. *)
Inductive myinfo_unknown (o : myinfo) : bytes -> bytes -> Prop :=
| xi_name n r t : ~ In " "%byte n -> name_unknown n t -> myinfo_unknown o (B "$ALL " ++ n ++ B " " ++ r) t
| xi_desc n name f0 hastag client version mode v extra d f1 f2 f3 f4 f5 t : ~ In " "%byte n -> name_read dec n name ->
    Forall (fun f => ~ In "$"%byte f) [f0; f1; f2; f3; f4; f5] -> desc_read o f0 hastag client version mode v extra d -> str_unknown d t ->
    myinfo_unknown o (B "$ALL " ++ n ++ B " " ++ sep_by (B "$") [f0; f1; f2; f3; f4; f5]) t
| xi_conn n name f0 hastag client version mode v extra d desc md c flag f3 f4 f5 t : ~ In " "%byte n -> name_read dec n name ->
    Forall (fun f => ~ In "$"%byte f) [f0; [md]; c ++ [flag]; f3; f4; f5] -> desc_read o f0 hastag client version mode v extra d -> str_read dec d desc ->
    str_unknown c t -> myinfo_unknown o (B "$ALL " ++ n ++ B " " ++ sep_by (B "$") [f0; [md]; c ++ [flag]; f3; f4; f5]) t
| xi_email n name f0 hastag client version mode v extra d desc md f2 f3 f4 f5 t : ~ In " "%byte n -> name_read dec n name ->
    Forall (fun f => ~ In "$"%byte f) [f0; [md]; f2; f3; f4; f5] -> desc_read o f0 hastag client version mode v extra d -> str_read dec d desc ->
    (f2 = [] \/ exists c flag conn, f2 = c ++ [flag] /\ str_read dec c conn) -> str_unknown f3 t ->
    myinfo_unknown o (B "$ALL " ++ n ++ B " " ++ sep_by (B "$") [f0; [md]; f2; f3; f4; f5]) t.
(** An entry of a list of addresses. *)
Inductive entry_unknown : bytes -> bytes -> Prop :=
| xe_both n ip t : ~ In " "%byte ip -> name_unknown n t -> entry_unknown (n ++ B " " ++ ip) t
| xe_name n t : ~ In " "%byte n -> name_unknown n t -> entry_unknown n t.

(** [unknown_in m data t]: decoding [data] into [m] reports the text [t] in an unknown encoding.
    The types without a case never do. *)
Inductive unknown_in : msg -> bytes -> bytes -> Prop :=
| ui_name k s data t : name_unknown data t -> unknown_in (MName k s) data t
| ui_string k s data t : str_unknown data t -> unknown_in (MString k s) data t
| ui_err k e data t : str_unknown data t -> unknown_in (MErr k e) data t
| ui_names k l data d ps t : without_suffix (B "$$") data d -> d <> [] -> split_on (B "$$") d ps -> list_unknown (name_read dec) name_unknown ps t ->
    unknown_in (MNames k l) data t
| ui_chat o data t : chat_unknown data t -> unknown_in (MChat o) data t
| ui_pm o data t : pm_unknown data t -> unknown_in (MPm o) data t
| ui_mcto o data t : mcto_unknown data t -> unknown_in (MMCTo o) data t
| ui_ucmd o data t : ucmd_unknown data t -> unknown_in (MUserCommand o) data t
| ui_ctm o data t : ctm_unknown data t -> unknown_in (MCtm o) data t
| ui_rctm o data t : rctm_unknown data t -> unknown_in (MRevCtm o) data t
| ui_adcget o data t : file_unknown data t -> unknown_in (MAdcGet o) data t
| ui_adcsnd o data t : file_unknown data t -> unknown_in (MAdcSnd o) data t
| ui_hubinfo o data t : hubinfo_unknown data t -> unknown_in (MHubInfo o) data t
| ui_search o data t : search_unknown data t -> unknown_in (MSearch o) data t
| ui_sr o data t : sr_unknown data t -> unknown_in (MSR o) data t
| ui_sp o data t : sp_unknown data t -> unknown_in (MSP o) data t
| ui_myinfo o data t : myinfo_unknown o data t -> unknown_in (MMyInfo o) data t
| ui_userip o data d1 d2 ps t : without_suffix [x0d] data d1 -> without_suffix (B "$$") d1 d2 -> split_on (B "$$") d2 ps ->
    list_unknown (userip_entry dec) entry_unknown ps t -> unknown_in (MUserIP o) data t.
End Unknown.

(** Types that report every text: not the ones with paths of commands and identifiers of files. *)
Definition plain_texts (o : msg) : Prop := match o with MUserCommand _ | MAdcGet _ | MAdcSnd _ => False | _ => True end.
