(** Independent specification of encoding: which NMDC messages are accepted by the encoder, and
    which payload each of them gets.  In contrast to SpecNmdc.v nothing is said here about
    whether the payload can be read back; every message is covered.  Only the record types are
    shared with the model. *)
From Verif Require Import Base SpecText SpecHash SpecNmdc NmdcChat NmdcHub NmdcFiles NmdcUser NmdcMessage.

(** A signed number as the unsigned one with the same 64 bits. *)
Definition wrap64 (z : Z) : N := Z.to_N (z mod 2 ^ 64).
(** The signed number with the same 64 bits as an unsigned one. *)
Definition signed64 (n : N) : Z := let m := (Z.of_N n mod 2 ^ 64)%Z in if (m <? 2 ^ 63)%Z then m else (m - 2 ^ 64)%Z.

Section Write.
Variable enc : option (bytes -> option bytes).

(** The type String: in the encoding of the connection and without NUL; special bytes become entities. *)
Definition str_write (s p : bytes) : Prop := exists w, encodes_to enc s w /\ ~ In x00 w /\ p = flat_map entity_string w.
(** The type Name: not longer than 256 bytes and without control characters that separate messages. *)
Definition name_write (s p : bytes) : Prop :=
  (N.of_nat (length s) <= 256)%N /\ exists w, encodes_to enc s w /\
    (~ In "$"%byte w /\ ~ In x00 w /\ ~ In x0d w /\ ~ In x0a w /\ ~ In x09 w) /\ p = flat_map entity_name w.

(** Chat: without a name only the text. *)
Inductive chat_write : chat -> bytes -> Prop :=
| chw_plain t p : str_write t p -> chat_write (mk_chat [] t) p
| chw_named n t pn pt : n <> [] -> name_write n pn -> str_write t pt -> chat_write (mk_chat n t) (B "<" ++ pn ++ B "> " ++ pt).
(** Private messages. *)
Inductive pm_write : pm -> bytes -> Prop :=
| pmw t f n x pt pf pn px : name_write t pt -> name_write f pf -> name_write n pn -> str_write x px ->
    pm_write (mk_pm t f n x) (pt ++ B " From: " ++ pf ++ B " $<" ++ pn ++ B "> " ++ px).
(** Chat lines for one user. *)
Inductive mcto_write : mcto -> bytes -> Prop :=
| mcw t f x pt pf px : name_write t pt -> name_write f pf -> str_write x px ->
    mcto_write (mk_mcto t f x) (pt ++ B " $" ++ pf ++ B " " ++ px).
(** Commands for a menu: path and command are left out if they are empty. *)
Inductive ucmd_write : ucmd -> bytes -> Prop :=
| ucw t c path cmd pp rest : Forall2 str_write path pp ->
    (cmd = [] /\ rest = [] \/ cmd <> [] /\ exists pc, str_write cmd pc /\ rest = B " $" ++ pc) ->
    ucmd_write (mk_ucmd t c path cmd)
      (dec_text (wrap64 t) ++ B " " ++ dec_text (wrap64 c) ++ (match path with [] => [] | _ => B " " ++ sep_by (B "\") pp end) ++ rest).
(** Connection requests: only those through NAT have a source. *)
Inductive ctm_write : ctm -> bytes -> Prop :=
| ctmw t a k secure pt : t <> [] -> name_write t pt -> k = 0%Z \/ k = 2%Z ->
    ctm_write (mk_ctm t [] a k secure) (pt ++ B " " ++ a ++ kind_letter k ++ (if secure then B "S" else []))
| ctmw_source t s a secure pt ps : t <> [] -> name_write t pt -> s <> [] -> name_write s ps ->
    ctm_write (mk_ctm t s a 1 secure) (pt ++ B " " ++ a ++ B "N" ++ (if secure then B "S" else []) ++ B " " ++ ps).
(** Reverse connection requests. *)
Inductive rctm_write : rctm -> bytes -> Prop :=
| rctmw f t pf pt : name_write f pf -> name_write t pt -> rctm_write (mk_rctm f t) (pf ++ B " " ++ pt).

(** File requests. *)
Inductive adcget_write : adcget -> bytes -> Prop :=
| adgw t i s l z db pt pi : str_write t pt -> str_write i pi ->
    adcget_write (mk_adcget t i s l z db) (pt ++ B " " ++ pi ++ B " " ++ dec_text s ++ B " " ++ int_text l ++
      (if z then B " ZL1" else []) ++ match db with Some n => B " DB" ++ dec_text n | None => [] end).
(** File announcements. *)
Inductive adcsnd_write : adcsnd -> bytes -> Prop :=
| adsw t i s l z pt pi : str_write t pt -> str_write i pi ->
    adcsnd_write (mk_adcsnd t i s l z) (pt ++ B " " ++ pi ++ B " " ++ dec_text s ++ B " " ++ dec_text l ++ (if z then B " ZL1" else [])).

(** The origin of a search: the address, or the name of the user if there is none. *)
Inductive who_write : bytes -> bytes -> bytes -> Prop :=
| ww_user u pu : name_write u pu -> who_write [] u (B "Hub:" ++ pu)
| ww_address a u : a <> [] -> who_write a u a.
(** What is searched for: the hash for type 9, otherwise the words. *)
Inductive what_write : N -> bytes -> option bytes -> bytes -> Prop :=
| wtw_hash p h t : hash_spelled h t -> what_write 9 p (Some h) (B "TTH:" ++ t)
| wtw_words typ p tth pp : typ <> 9%N -> str_write p pp -> what_write typ p tth (dollars pp).
(** Searches: the type 0 is sent as 1, and without a restriction the size is a maximum. *)
Inductive search_write : search -> bytes -> Prop :=
| sew a u r x size typ p tth who what : who_write a u who -> what_write typ p tth what ->
    search_write (mk_search a u r x size typ p tth)
      (who ++ B " " ++ restriction r (negb r || x) ++ B "?" ++ dec_text size ++ B "?" ++
       dec_text (if (typ =? 0)%N then 1%N else typ) ++ B "?" ++ what).
(** Search results: a hash is sent instead of the name of the hub. *)
Inductive sr_write : sr -> bytes -> Prop :=
| srw f path isdir size free total hub tth addr to pf pp ph pto : name_write f pf -> path <> [] -> Forall2 str_write path pp ->
    match tth with Some h => exists t, hash_spelled h t /\ ph = B "TTH:" ++ t | None => str_write hub ph end ->
    (to = [] /\ pto = [] \/ to <> [] /\ exists q, name_write to q /\ pto = x05 :: q) ->
    sr_write (mk_sr f path isdir size free total hub tth addr to)
      (pf ++ B " " ++ sep_by (B "\") pp ++ (if isdir then [] else x05 :: dec_text size) ++ B " " ++
       int_text free ++ B "/" ++ int_text total ++ [x05] ++ ph ++ B " (" ++ addr ++ B ")" ++ pto).
(** Short searches. *)
Inductive sa_write : sa -> bytes -> Prop :=
| saw_all h t a : hash_spelled h t -> sa_write (mk_sa h a) (t ++ B " " ++ a).
(** Short searches of passive users. *)
Inductive sp_write : sp -> bytes -> Prop :=
| spw_all h t u pu : hash_spelled h t -> name_write u pu -> sp_write (mk_sp h u) (t ++ B " " ++ pu).

(** User information: an unset mode is sent as a space and an unset flag as 1. *)
Inductive myinfo_write : myinfo -> bytes -> Prop :=
| miw_all n d cl v mode hn hr ho slots extra conn flag email share pn pd pc pe :
    name_write n pn -> str_write d pd -> str_write conn pc -> str_write email pe ->
    myinfo_write (mk_myinfo n d cl v mode hn hr ho slots extra conn flag email share)
      (B "$ALL " ++ pn ++ B " " ++ pd ++
       B "<" ++ cl ++ B " V:" ++ v ++ B ",M:" ++ [if beq mode x00 then " "%byte else mode] ++
       B ",H:" ++ int_text hn ++ B "/" ++ int_text hr ++ B "/" ++ int_text ho ++ B ",S:" ++ int_text slots ++
       concat (map (fun kv => B "," ++ fst kv ++ B ":" ++ snd kv) extra) ++ B ">" ++
       B "$ $" ++ pc ++ [if beq flag x00 then x01 else flag] ++ B "$" ++ pe ++ B "$" ++ dec_text share ++ B "$").
(** Lists of names; an empty list is not the empty payload. *)
Inductive names_write : list bytes -> bytes -> Prop :=
| naw_none : names_write [] (B "$$")
| naw_some l pl : l <> [] -> Forall2 name_write l pl -> names_write l (concat (map (fun p => p ++ B "$$") pl)).
(** Lists of users with addresses. *)
Definition userip_write (l : list (bytes * bytes)) (p : bytes) : Prop :=
  exists pl, Forall2 (fun e q => exists pn, name_write (fst e) pn /\ q = pn ++ B " " ++ snd e ++ B "$$") l pl /\ p = concat pl.
(** Locks. *)
Definition lock_write (m : lock) (p : bytes) : Prop :=
  p = (if lk_noext m then [] else B "EXTENDEDPROTOCOL") ++ lk_lock m ++
      match lk_pk m, lk_ref m with
      | [], [] => []
      | [], r => B " Ref=" ++ r
      | k, [] => B " Pk=" ++ k
      | k, r => B " Pk=" ++ k ++ B "Ref=" ++ r
      end.
(** Hub information. *)
Inductive hubinfo_write : hubinfo -> bytes -> Prop :=
| hiw_all n host d i1 i2 i3 i4 soft vers o s e pn pd po ps : str_write n pn -> str_write d pd -> str_write o po -> str_write s ps ->
    hubinfo_write (mk_hubinfo n host d i1 i2 i3 i4 soft vers o s e)
      (sep_by (B "$") [pn; host; pd; int_text i1; int_text i2; int_text i3; int_text i4;
                       match vers with [] => soft | _ => soft ++ B " " ++ vers end; po; ps; e]).

(** The payload of every message. *)
Inductive writes : msg -> bytes -> Prop :=
| wr_name k s p : name_write s p -> writes (MName k s) p
| wr_string k s p : str_write s p -> writes (MString k s) p
| wr_noargs k : writes (MNoArgs k) []
| wr_text k s : writes (MText k s) s
| wr_no_err k : writes (MErr k None) []
| wr_err k t p : str_write t p -> writes (MErr k (Some t)) p
| wr_names k l p : names_write l p -> writes (MNames k l) p
| wr_chat m p : chat_write m p -> writes (MChat m) p
| wr_pm m p : pm_write m p -> writes (MPm m) p
| wr_mcto m p : mcto_write m p -> writes (MMCTo m) p
| wr_ucmd m p : ucmd_write m p -> writes (MUserCommand m) p
| wr_ctm m p : ctm_write m p -> writes (MCtm m) p
| wr_rctm m p : rctm_write m p -> writes (MRevCtm m) p
| wr_adcget m p : adcget_write m p -> writes (MAdcGet m) p
| wr_adcsnd m p : adcsnd_write m p -> writes (MAdcSnd m) p
| wr_direction up n : writes (MDirection (mk_direction up n)) ((if up then B "Upload" else B "Download") ++ B " " ++ int_text (signed64 n))
| wr_failover l : writes (MFailOver l) (sep_by (B ",") l)
| wr_lock m p : lock_write m p -> writes (MLock m) p
| wr_hubinfo m p : hubinfo_write m p -> writes (MHubInfo m) p
| wr_search m p : search_write m p -> writes (MSearch m) p
| wr_sr m p : sr_write m p -> writes (MSR m) p
| wr_sa m p : sa_write m p -> writes (MSA m) p
| wr_sp m p : sp_write m p -> writes (MSP m) p
| wr_myinfo m p : myinfo_write m p -> writes (MMyInfo m) p
| wr_userip l p : userip_write l p -> writes (MUserIP l) p
| wr_supports l : writes (MSupports l) (sep_by (B " ") l)
| wr_raw t d : writes (MRaw t d) d.
End Write.
