(** Independent specification of the NMDC wire formats: for every message type a relation
    between messages and payloads.  Only the record types of the model are used. *)
From Coq Require Import DecimalString.
From Verif Require Import Base SpecText SpecHash NmdcChat NmdcHub NmdcFiles NmdcUser NmdcMessage.

(** Decimal notation. *)
Definition dec_text (n : N) : bytes := B (NilZero.string_of_uint (N.to_uint n)).
(** A number in decimal. *)
Definition int_text (z : Z) : bytes :=
  if (z <? 0)%Z then "-"%byte :: dec_text (Z.to_N (- z)) else dec_text (Z.to_N z).

(** A hash and its base32 text. *)
Definition hash_spelled (h t : bytes) : Prop :=
  length h = 24 /\ length t = 39 /\ spells t (flat_map bits8 h ++ [false; false; false]).

(** 64-bit numbers *)
Definition u64 (n : N) : Prop := (n < 2 ^ 64)%N.
(** The range of int64. *)
Definition i64 (z : Z) : Prop := (- 2 ^ 63 <= z < 2 ^ 63)%Z.

(** [s] ends with the byte [c]. *)
Definition ends_in (c : byte) (s : bytes) : Prop := exists a, s = a ++ [c].
(** [s] starts with [p]. *)
Definition starts_with (p s : bytes) : Prop := exists r, s = p ++ r.

(** Text [l] separated by [sep]. *)
Fixpoint sep_by (sep : bytes) (l : list bytes) : bytes :=
  match l with
  | [] => []
  | x :: [] => x
  | x :: r => x ++ sep ++ sep_by sep r
  end.

(** White space (Unicode White_Space). *)
Definition white (r : N) : Prop :=
  In r [9; 10; 11; 12; 13; 32; 0x85; 0xA0; 0x1680; 0x2000; 0x2001; 0x2002; 0x2003; 0x2004; 0x2005; 0x2006;
        0x2007; 0x2008; 0x2009; 0x200A; 0x2028; 0x2029; 0x202F; 0x205F; 0x3000]%N.
(** [s] ends with a white space character in UTF-8. *)
Definition ends_white (s : bytes) : Prop := exists a r, white r /\ s = a ++ utf8_of r.

Section Wire.
Variables enc dec : option (bytes -> option bytes).
(** Escaped text. *)
Notation es := (flat_map entity_string).
(** Escaped names. *)
Notation en := (flat_map entity_name).
(** A name as text. *)
Notation name := (name_text enc dec).
(** A text. *)
Notation str := (string_text enc dec).

(** ** Chat *)

(** Chat lines. *)
Inductive chat_wire : chat -> bytes -> Prop :=
| cw_named n wn t wt : n <> [] -> name n wn -> str t wt ->
    chat_wire (mk_chat n t) (B "<" ++ en wn ++ B "> " ++ es wt)
| cw_plain t wt : str t wt -> ~ starts_with (B "<") wt -> chat_wire (mk_chat [] t) (es wt).

(** Private messages. *)
Inductive pm_wire : pm -> bytes -> Prop :=
| pw t wt f wf n wn x wx : name t wt -> name f wf -> name n wn -> str x wx ->
    ~ substring (B " From:") wt ->
    pm_wire (mk_pm t f n x) (en wt ++ B " From: " ++ en wf ++ B " $<" ++ en wn ++ B "> " ++ es wx).

(** Private messages of a hub. *)
Inductive mcto_wire : mcto -> bytes -> Prop :=
| mw t wt f wf x wx : name t wt -> name f wf -> str x wx -> ~ In " "%byte wf ->
    mcto_wire (mk_mcto t f x) (en wt ++ B " $" ++ en wf ++ B " " ++ es wx).

(** A path component of a user command and its text. *)
Definition ucmd_part (p w : bytes) : Prop := str p w /\ w <> [] /\ ~ In "\"%byte w.
(** User commands. *)
Inductive ucmd_wire : ucmd -> bytes -> Prop :=
| uw_bare t c : (0 <= t < 2 ^ 63)%Z -> (0 <= c < 2 ^ 63)%Z ->
    ucmd_wire (mk_ucmd t c [] []) (dec_text (Z.to_N t) ++ B " " ++ dec_text (Z.to_N c))
| uw_full t c path ws cmd wc : (0 <= t < 2 ^ 63)%Z -> (0 <= c < 2 ^ 63)%Z ->
    path <> [] -> Forall2 ucmd_part path ws -> ~ ends_in " " (sep_by (B "\") ws) ->
    cmd <> [] -> str cmd wc -> ~ ends_white wc ->
    ucmd_wire (mk_ucmd t c path cmd)
      (dec_text (Z.to_N t) ++ B " " ++ dec_text (Z.to_N c) ++ B " " ++ sep_by (B "\") (map es ws) ++ B " $" ++ es wc).

(** ** Connections *)

(** The letter for the role in a connection request through NAT. *)
Definition kind_letter (k : Z) : bytes := if (k =? 1)%Z then B "N" else if (k =? 2)%Z then B "R" else [].
(** Connection requests. *)
Inductive ctm_wire : ctm -> bytes -> Prop :=
| ctw_active t wt a secure : t <> [] -> name t wt -> ~ In " "%byte wt -> ~ In " "%byte a ->
    ~ ends_in "N" a -> ~ ends_in "R" a -> (secure = false -> ~ ends_in "S" a) ->
    ctm_wire (mk_ctm t [] a 0 secure) (en wt ++ B " " ++ a ++ (if secure then B "S" else []))
| ctw_request t wt a secure s ws : t <> [] -> name t wt -> ~ In " "%byte wt -> ~ In " "%byte a ->
    s <> [] -> name s ws ->
    ctm_wire (mk_ctm t s a 1 secure) (en wt ++ B " " ++ a ++ B "N" ++ (if secure then B "S" else []) ++ B " " ++ en ws)
| ctw_response t wt a secure : t <> [] -> name t wt -> ~ In " "%byte wt -> ~ In " "%byte a ->
    ctm_wire (mk_ctm t [] a 2 secure) (en wt ++ B " " ++ a ++ B "R" ++ (if secure then B "S" else [])).

(** Reverse connection requests. *)
Inductive rctm_wire : rctm -> bytes -> Prop :=
| rcw f wf t wt : name f wf -> name t wt -> ~ In " "%byte wf ->
    rctm_wire (mk_rctm f t) (en wf ++ B " " ++ en wt).

(** ** Files *)

(** File requests. *)
Inductive adcget_wire : adcget -> bytes -> Prop :=
| agw t wt i wi start len z db : str t wt -> str i wi -> ~ In " "%byte wt -> ~ In " "%byte wi ->
    u64 start -> (len = -1 \/ 0 <= len < 2 ^ 63)%Z -> match db with Some n => u64 n | None => True end ->
    adcget_wire (mk_adcget t i start len z db)
      (es wt ++ B " " ++ es wi ++ B " " ++ dec_text start ++ B " " ++ int_text len ++
       (if z then B " ZL1" else []) ++ match db with Some n => B " DB" ++ dec_text n | None => [] end).

(** File announcements. *)
Inductive adcsnd_wire : adcsnd -> bytes -> Prop :=
| asw t wt i wi start len z : str t wt -> str i wi -> ~ In " "%byte wt -> ~ In " "%byte wi -> u64 start -> u64 len ->
    adcsnd_wire (mk_adcsnd t i start len z)
      (es wt ++ B " " ++ es wi ++ B " " ++ dec_text start ++ B " " ++ dec_text len ++ (if z then B " ZL1" else [])).

(** Directions of a transfer. *)
Inductive direction_wire : direction -> bytes -> Prop :=
| diw up n : (1 <= n <= 32767)%N ->
    direction_wire (mk_direction up n) ((if up then B "Upload" else B "Download") ++ B " " ++ dec_text n).

(** ** Search *)

(** Spaces become dollar signs. *)
Definition dollars (s : bytes) : bytes := map (fun c => if beq c " " then "$"%byte else c) s.
(** A search pattern: the text with dollar signs must be understood as well (true in UTF-8 and
    all encodings which leave these two characters alone). *)
Definition pattern_text (p w : bytes) : Prop :=
  str p w /\ ~ In "$"%byte p /\ ~ In "$"%byte w /\ encodes_to dec (dollars w) (dollars p).

(** The origin of a search. *)
Definition who_wire (address user : bytes) (p : bytes) : Prop :=
  (address <> [] /\ ~ In " "%byte address /\ ~ starts_with (B "Hub:") address /\ user = [] /\ p = address) \/
  (address = [] /\ exists wu, name user wu /\ ~ In " "%byte wu /\ p = B "Hub:" ++ en wu).
(** The size restriction of a search. *)
Definition restriction (restricted ismax : bool) : bytes :=
  (if restricted then B "T" else B "F") ++ B "?" ++ (if ismax then B "T" else B "F").
(** Searches. *)
Inductive search_wire : search -> bytes -> Prop :=
| sw_pattern a u who r x size typ p wp : who_wire a u who -> (r = false -> x = true) -> u64 size -> u64 typ ->
    typ <> 0%N -> typ <> 9%N -> pattern_text p wp ->
    search_wire (mk_search a u r x size typ p None)
      (who ++ B " " ++ restriction r x ++ B "?" ++ dec_text size ++ B "?" ++ dec_text typ ++ B "?" ++ dollars (es wp))
| sw_tth a u who r x size h t : who_wire a u who -> (r = false -> x = true) -> u64 size -> hash_spelled h t ->
    search_wire (mk_search a u r x size 9 [] (Some h))
      (who ++ B " " ++ restriction r x ++ B "?" ++ dec_text size ++ B "?9?TTH:" ++ t).

(** A path component that is sent unchanged. *)
Definition sr_part (p : bytes) : Prop :=
  str p p /\ ~ In "&"%byte p /\ ~ In "$"%byte p /\ ~ In "|"%byte p /\ ~ In "\"%byte p /\ ~ In x05 p.
(** A path component and its text before escaping. *)
Definition path_piece (p w : bytes) : Prop := str p w /\ ~ In "\"%byte w /\ ~ In x05 w.
(** A path that can be mistaken for one followed by slots. *)
Definition slot_char (c : byte) : Prop := c = "/"%byte \/ digit_char c.
(** A text which looks like slots. *)
Definition slots_like (p : bytes) : Prop :=
  exists a c d, p = a ++ c :: d /\ ~ slot_char c /\ Forall slot_char d /\ In "/"%byte d.
(** The hub name or hash of a result. *)
Definition sr_hub_wire (hub : bytes) (tth : option bytes) (p : bytes) : Prop :=
  match tth with
  | Some h => hub = [] /\ exists t, hash_spelled h t /\ p = B "TTH:" ++ t
  | None => exists w, str hub w /\ ~ starts_with (B "TTH:") w /\ ~ substring (B " (") w /\ p = es w
  end.
(** The target of a result. *)
Definition sr_to_wire (to p : bytes) : Prop :=
  to = [] /\ p = [] \/ to <> [] /\ exists w, name to w /\ w <> [] /\ p = x05 :: en w.
(** Search results. *)
Inductive sr_wire : sr -> bytes -> Prop :=
| srw_file f wf path size free total hub tth ph addr to pt :
    name f wf -> ~ In " "%byte wf -> path <> [] -> Forall sr_part path ->
    str (sep_by (B "\") path) (sep_by (B "\") path) -> ~ slots_like (sep_by (B "\") path) ->
    u64 size -> i64 free -> i64 total -> sr_hub_wire hub tth ph -> ~ In ")"%byte addr -> sr_to_wire to pt ->
    sr_wire (mk_sr f path false size free total hub tth addr to)
      (en wf ++ B " " ++ sep_by (B "\") path ++ [x05] ++ dec_text size ++ B " " ++ int_text free ++ B "/" ++
       int_text total ++ [x05] ++ ph ++ B " (" ++ addr ++ B ")" ++ pt)
| srw_dir f wf path free total hub tth ph addr to pt :
    name f wf -> ~ In " "%byte wf -> path <> [] -> Forall sr_part path ->
    str (sep_by (B "\") path) (sep_by (B "\") path) ->
    (0 <= free < 2 ^ 63)%Z -> (0 <= total < 2 ^ 63)%Z -> sr_hub_wire hub tth ph -> ~ In ")"%byte addr -> sr_to_wire to pt ->
    sr_wire (mk_sr f path true 0 free total hub tth addr to)
      (en wf ++ B " " ++ sep_by (B "\") path ++ B " " ++ int_text free ++ B "/" ++
       int_text total ++ [x05] ++ ph ++ B " (" ++ addr ++ B ")" ++ pt).

(** Short active searches. *)
Inductive sa_wire : sa -> bytes -> Prop :=
| saw h t a : hash_spelled h t -> sa_wire (mk_sa h a) (t ++ B " " ++ a).
(** Short passive searches. *)
Inductive sp_wire : sp -> bytes -> Prop :=
| spw h t u wu : hash_spelled h t -> name u wu -> sp_wire (mk_sp h u) (t ++ B " " ++ en wu).

(** ** Users *)

(** Text that stays inside a field of the tag. *)
Definition tag_clean (s : bytes) : Prop := ~ In ","%byte s /\ ~ In "<"%byte s /\ ~ In "$"%byte s.
(** Keys of additional tag fields: a single character is upper case and not one of the
    standard fields. *)
Definition extra_key (k : bytes) : Prop :=
  k <> [] /\ tag_clean k /\ ~ In ":"%byte k /\
  forall c, k = [c] -> (b2n c <= 90)%N /\ ~ In c (B "VMHS").
(** User information. *)
Inductive myinfo_wire : myinfo -> bytes -> Prop :=
| miw n wn d wd cl v mode hn hr ho slots extra conn wc flag email we share :
    name n wn -> ~ In " "%byte wn -> str d wd ->
    ~ In "<"%byte cl -> ~ In "$"%byte cl -> ~ substring (B " V:") cl -> tag_clean v ->
    mode <> x00 -> tag_clean [mode] ->
    i64 hn -> i64 hr -> i64 ho -> i64 slots ->
    NoDup (map fst extra) -> Forall (fun kv => extra_key (fst kv) /\ tag_clean (snd kv)) extra ->
    str conn wc -> flag <> x00 -> flag <> "$"%byte -> str email we -> u64 share ->
    myinfo_wire (mk_myinfo n d cl v mode hn hr ho slots extra conn flag email share)
      (B "$ALL " ++ en wn ++ B " " ++ es wd ++
       B "<" ++ cl ++ B " V:" ++ v ++ B ",M:" ++ [mode] ++
       B ",H:" ++ int_text hn ++ B "/" ++ int_text hr ++ B "/" ++ int_text ho ++ B ",S:" ++ int_text slots ++
       concat (map (fun kv => B "," ++ fst kv ++ B ":" ++ snd kv) extra) ++ B ">" ++
       B "$ $" ++ es wc ++ [flag] ++ B "$" ++ es we ++ B "$" ++ dec_text share ++ B "$").

(** Lists of names. *)
Inductive names_wire : list bytes -> bytes -> Prop :=
| nmw_none : names_wire [] (B "$$")
| nmw_some l ws : l <> [] -> Forall2 name l ws -> ws <> [[]] ->
    names_wire l (concat (map (fun w => en w ++ B "$$") ws)).

(** Lists of users with addresses. *)
Inductive userip_wire : list (bytes * bytes) -> bytes -> Prop :=
| uiw l ws : l <> [] -> Forall2 name (map fst l) ws ->
    Forall (fun a => ~ In " "%byte (snd a) /\ ~ In "$"%byte (snd a)) l ->
    userip_wire l (concat (map (fun wa => en (fst wa) ++ B " " ++ snd wa ++ B "$$") (combine ws (map snd l)))).

(** ** Hub *)

(** Errors. *)
Inductive err_wire : option bytes -> bytes -> Prop :=
| erw_none : encodes_to dec [] [] -> err_wire None []
| erw_some t w : t <> [] -> str t w -> err_wire (Some t) (es w).

(** Lists of hubs. *)
Inductive failover_wire : list bytes -> bytes -> Prop :=
| fow l : l <> [] -> Forall (fun h => ~ In ","%byte h) l -> failover_wire l (sep_by (B ",") l).

(** Extensions. *)
Inductive supports_wire : list bytes -> bytes -> Prop :=
| suw l : Forall (fun e => e <> [] /\ ~ In " "%byte e) l -> supports_wire l (sep_by (B " ") l).

(** Locks. *)
Inductive lock_wire : lock -> bytes -> Prop :=
| lkw noext l pk ref :
    ~ In " "%byte l -> (noext = true -> ~ starts_with (B "EXTENDEDPROTOCOL") l) -> ~ substring (B "Ref=") pk ->
    lock_wire (mk_lock noext l pk ref)
      ((if noext then [] else B "EXTENDEDPROTOCOL") ++ l ++
       match pk, ref with
       | [], [] => []
       | [], r => B " Ref=" ++ r
       | k, [] => B " Pk=" ++ k
       | k, r => B " Pk=" ++ k ++ B "Ref=" ++ r
       end).

(** Hub information. *)
Inductive hubinfo_wire : hubinfo -> bytes -> Prop :=
| hiw n wn host d wd i1 i2 i3 i4 soft vers o wo s ws e :
    str n wn -> str d wd -> str o wo -> str s ws -> i64 i1 -> i64 i2 -> i64 i3 -> i64 i4 ->
    ~ In "$"%byte host -> ~ In "$"%byte soft -> ~ In "$"%byte vers -> ~ In "$"%byte e ->
    (vers = [] -> ~ In " "%byte soft) -> ~ In " "%byte vers ->
    hubinfo_wire (mk_hubinfo n host d i1 i2 i3 i4 soft vers o s e)
      (sep_by (B "$") [es wn; host; es wd; int_text i1; int_text i2; int_text i3; int_text i4;
                       match vers with [] => soft | _ => soft ++ B " " ++ vers end; es wo; es ws; e]).

(** ** All messages *)

(** The payload of every message. *)
Inductive wire : msg -> bytes -> Prop :=
| w_name k s w : name s w -> wire (MName k s) (en w)
| w_string k s w : str s w -> wire (MString k s) (es w)
| w_noargs k : wire (MNoArgs k) []
| w_text k s : wire (MText k s) s
| w_err k e p : err_wire e p -> wire (MErr k e) p
| w_names k l p : names_wire l p -> wire (MNames k l) p
| w_chat m p : chat_wire m p -> wire (MChat m) p
| w_pm m p : pm_wire m p -> wire (MPm m) p
| w_mcto m p : mcto_wire m p -> wire (MMCTo m) p
| w_ucmd m p : ucmd_wire m p -> wire (MUserCommand m) p
| w_ctm m p : ctm_wire m p -> wire (MCtm m) p
| w_rctm m p : rctm_wire m p -> wire (MRevCtm m) p
| w_adcget m p : adcget_wire m p -> wire (MAdcGet m) p
| w_adcsnd m p : adcsnd_wire m p -> wire (MAdcSnd m) p
| w_direction m p : direction_wire m p -> wire (MDirection m) p
| w_failover l p : failover_wire l p -> wire (MFailOver l) p
| w_lock m p : lock_wire m p -> wire (MLock m) p
| w_hubinfo m p : hubinfo_wire m p -> wire (MHubInfo m) p
| w_search m p : search_wire m p -> wire (MSearch m) p
| w_sr m p : sr_wire m p -> wire (MSR m) p
| w_sa m p : sa_wire m p -> wire (MSA m) p
| w_sp m p : sp_wire m p -> wire (MSP m) p
| w_myinfo m p : myinfo_wire m p -> wire (MMyInfo m) p
| w_userip l p : userip_wire l p -> wire (MUserIP l) p
| w_supports l p : supports_wire l p -> wire (MSupports l) p
| w_raw t d : wire (MRaw t d) d.
End Wire.
