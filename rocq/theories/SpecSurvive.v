(** Independent specification of the messages which arrive as they were sent when both sides use
    UTF-8.  In contrast to the conditions in SpecNmdc.v these are exact: every other message
    arrives changed or is refused. *)
From Verif Require Import Base SpecText SpecHash SpecNmdc SpecRead NmdcChat NmdcHub NmdcFiles NmdcUser NmdcMessage.

(** A text which arrives. *)
Definition t_ok (s : bytes) : Prop := utf8_text s /\ ~ In x00 s /\ no_legacy s.
(** A name which arrives: not too long with entities for its special bytes. *)
Definition n_ok (s : bytes) : Prop :=
  utf8_text s /\ (name_wire_len s <= 256)%N /\ (~ In "$"%byte s /\ ~ In x00 s /\ ~ In x0d s /\ ~ In x0a s /\ ~ In x09 s) /\ no_legacy s.
(** A hash of 24 bytes. *)
Definition h_ok (h : bytes) : Prop := length h = 24.

(** Commands for a menu: both path and command, or none of them. *)
Definition ucmd_fits (m : ucmd) : Prop :=
  (0 <= uc_typ m < 2 ^ 63)%Z /\ (0 <= uc_context m < 2 ^ 63)%Z /\
  (uc_path m = [] /\ uc_command m = [] \/
   uc_path m <> [] /\ Forall (fun p => p <> [] /\ t_ok p /\ ~ In "\"%byte p) (uc_path m) /\ ~ ends_in " " (last (uc_path m) []) /\
   uc_command m <> [] /\ t_ok (uc_command m) /\ ~ ends_white (uc_command m)).
(** Connection requests. *)
Definition ctm_fits (m : ctm) : Prop :=
  ct_targ m <> [] /\ n_ok (ct_targ m) /\ ~ In " "%byte (ct_targ m) /\ ~ In " "%byte (ct_address m) /\
  (ct_kind m = 0%Z /\ ct_src m = [] /\ ~ ends_in "N" (ct_address m) /\ ~ ends_in "R" (ct_address m) /\ (ct_secure m = false -> ~ ends_in "S" (ct_address m)) \/
   ct_kind m = 1%Z /\ ct_src m <> [] /\ n_ok (ct_src m) \/
   ct_kind m = 2%Z /\ ct_src m = []).
(** Searches. *)
Definition search_fits (m : search) : Prop :=
  (se_address m <> [] /\ ~ In " "%byte (se_address m) /\ ~ starts_with (B "Hub:") (se_address m) /\ se_user m = [] \/
   se_address m = [] /\ n_ok (se_user m) /\ ~ In " "%byte (se_user m)) /\
  (se_restricted m = false -> se_ismax m = true) /\ u64 (se_size m) /\ u64 (se_dtype m) /\ se_dtype m <> 0%N /\
  (se_dtype m = 9%N /\ se_pattern m = [] /\ (exists h, se_tth m = Some h /\ h_ok h) \/
   se_dtype m <> 9%N /\ se_tth m = None /\ t_ok (se_pattern m) /\ ~ In "$"%byte (se_pattern m)).
(** Search results. *)
Definition sr_fits (m : sr) : Prop :=
  n_ok (sr_from m) /\ ~ In " "%byte (sr_from m) /\ sr_path m <> [] /\
  Forall (fun p => utf8_text p /\ Forall (fun c => ~ In c p) [x00; "&"%byte; "$"%byte; "|"%byte; "\"%byte; x05]) (sr_path m) /\
  (sr_isdir m = false /\ ~ slots_like (sep_by (B "\") (sr_path m)) /\ u64 (sr_size m) /\ i64 (sr_free m) /\ i64 (sr_total m) \/
   sr_isdir m = true /\ sr_size m = 0%N /\ (0 <= sr_free m < 2 ^ 63)%Z /\ (0 <= sr_total m < 2 ^ 63)%Z) /\
  match sr_tth m with
  | Some h => h_ok h /\ sr_hubname m = []
  | None => t_ok (sr_hubname m) /\ ~ starts_with (B "TTH:") (sr_hubname m) /\ ~ substring (B " (") (sr_hubname m)
  end /\
  ~ In ")"%byte (sr_hubaddr m) /\ n_ok (sr_to m).
(** Two dollar signs end an entry: the address of the last one may end with another one. *)
Fixpoint entries_fit (l : list (bytes * bytes)) : Prop :=
  match l with
  | [] => False
  | [(n, a)] => n_ok n /\ ~ In " "%byte a /\ ~ substring (B "$$") a
  | (n, a) :: r => n_ok n /\ ~ In " "%byte a /\ ~ substring (B "$$") (a ++ B "$") /\ entries_fit r
  end.

(** User information.  Additional fields are a map: no key occurs twice. *)
Definition myinfo_fits (m : myinfo) : Prop :=
  n_ok (mi_name m) /\ ~ In " "%byte (mi_name m) /\ t_ok (mi_desc m) /\
  ~ In "<"%byte (mi_client m) /\ ~ In "$"%byte (mi_client m) /\ ~ substring (B " V:") (mi_client m) /\ tag_clean (mi_version m) /\
  mi_mode m <> x00 /\ tag_clean [mi_mode m] /\ i64 (mi_hubs_normal m) /\ i64 (mi_hubs_reg m) /\ i64 (mi_hubs_op m) /\ i64 (mi_slots m) /\
  NoDup (map fst (mi_extra m)) /\ Forall (fun kv => extra_key (fst kv) /\ tag_clean (snd kv)) (mi_extra m) /\
  t_ok (mi_conn m) /\ mi_flag m <> x00 /\ mi_flag m <> "$"%byte /\ t_ok (mi_email m) /\ u64 (mi_share m).

(** All messages.  A raw message only arrives as such if its name is not known. *)
Definition fits (m : msg) : Prop :=
  match m with
  | MName _ s => n_ok s
  | MString _ s => t_ok s
  | MNoArgs _ | MText _ _ => True
  | MErr _ None => True
  | MErr _ (Some t) => t <> [] /\ t_ok t
  | MNames _ l => Forall n_ok l /\ l <> [[]]
  | MChat m => t_ok (ch_text m) /\ (ch_name m <> [] /\ n_ok (ch_name m) \/ ch_name m = [] /\ ~ starts_with (B "<") (ch_text m))
  | MPm m => n_ok (pm_to m) /\ n_ok (pm_from m) /\ n_ok (pm_name m) /\ t_ok (pm_text m) /\ ~ substring (B " From: ") (pm_to m ++ B " From:")
  | MMCTo m => n_ok (mt_to m) /\ n_ok (mt_from m) /\ t_ok (mt_text m) /\ ~ In " "%byte (mt_from m)
  | MUserCommand m => ucmd_fits m
  | MCtm m => ctm_fits m
  | MRevCtm m => n_ok (rc_from m) /\ n_ok (rc_to m) /\ ~ In " "%byte (rc_from m)
  | MAdcGet m => t_ok (ag_type m) /\ t_ok (ag_ident m) /\ ~ In " "%byte (ag_type m) /\ ~ In " "%byte (ag_ident m) /\ u64 (ag_start m) /\
      (-1 <= ag_length m < 2 ^ 63)%Z /\ match ag_downloaded m with Some n => u64 n | None => True end
  | MAdcSnd m => t_ok (as_type m) /\ t_ok (as_ident m) /\ ~ In " "%byte (as_type m) /\ ~ In " "%byte (as_ident m) /\ u64 (as_start m) /\ u64 (as_length m)
  | MDirection m => (1 <= di_number m <= 32767)%N
  | MFailOver l => l <> [] /\ Forall (fun h => ~ In ","%byte h) l
  | MSupports l => Forall (fun e => e <> [] /\ ~ In " "%byte e) l
  | MLock m => ~ In " "%byte (lk_lock m) /\ ~ substring (B "Ref=") (lk_pk m) /\ (lk_noext m = true -> ~ starts_with (B "EXTENDEDPROTOCOL") (lk_lock m))
  | MHubInfo m => t_ok (hi_name m) /\ t_ok (hi_desc m) /\ t_ok (hi_owner m) /\ t_ok (hi_state m) /\
      i64 (hi_i1 m) /\ i64 (hi_i2 m) /\ i64 (hi_i3 m) /\ i64 (hi_i4 m) /\
      ~ In "$"%byte (hi_host m) /\ ~ In "$"%byte (hi_soft m) /\ ~ In "$"%byte (hi_vers m) /\ ~ In "$"%byte (hi_encoding m) /\
      ~ In " "%byte (hi_vers m) /\ (hi_vers m = [] -> ~ In " "%byte (hi_soft m))
  | MSearch m => search_fits m
  | MSR m => sr_fits m
  | MSA m => h_ok (sa_tth m)
  | MSP m => h_ok (sp_tth m) /\ n_ok (sp_user m)
  | MUserIP l => entries_fit l
  | MRaw t _ => ~ In t known
  | MMyInfo m => myinfo_fits m
  end.
