(** Properties C32-C48: NMDC messages decode to what was encoded. *)
From Verif Require Import Base BaseFacts SpecText SpecNmdc SpecFrame SpecCommand NmdcText NmdcTextFacts NmdcChat NmdcHub NmdcFiles NmdcUser NmdcMessage Tiger
  NmdcFrameFacts NmdcDecodeFacts NmdcExtraFacts NmdcLimitsFacts NmdcReuseFacts NmdcDecide.
From Coq Require Import Lia.

(** [m] is encoded as the payload [p] and a reader creating the message by its type decodes it. *)
Definition round_trip (enc dec : codec) (m : msg) (p : bytes) : Prop :=
  msg_marshal enc m = Ok p /\ msg_unmarshal dec (new_message (msg_type m)) p = (m, Ok tt).
Lemma wire_round enc dec m p : wire enc dec m p -> raw_name m -> round_trip enc dec m p.
Proof. intros H R. split; [exact (wire_encodes enc dec m p H)|exact (wire_fresh enc dec m p H R)]. Qed.
Ltac wired := intros; apply wire_round; [econstructor; eassumption|exact I].
(** A hash for the examples. *)
Definition h24 : bytes := B "LWPNACQDBZRYXW3VHJVCJ64Q".
Definition h24_text : bytes := hash_base32 h24.

(** ** C32: chat *)
Theorem C32_chat : forall enc dec m p, chat_wire enc dec m p -> round_trip enc dec (MChat m) p.
Proof. wired. Qed.
Print Assumptions C32_chat.
Example C32_named : chat_wire None None (mk_chat (B "a&b>") (B "1 < 2 | $x &amp;")) (B "<a&amp;b&gt;> 1 < 2 &#124; &#36;x &amp;amp;").
Proof. by_wire (cw_named None None (B "a&b>") (B "a&b>") (B "1 < 2 | $x &amp;") (B "1 < 2 | $x &amp;") _ _ _). Qed.
Example C32_plain : chat_wire None None (mk_chat [] (B "hub is closing <now>")) (B "hub is closing <now>").
Proof. by_wire (cw_plain None None (B "hub is closing <now>") (B "hub is closing <now>") _ _). Qed.
(** The same text with a legacy single-byte encoding. *)
Definition latin_enc (s : bytes) : option bytes := if bytes_eqb s (B "caf" ++ [xc3; xa9]) then Some (B "caf" ++ [xe9]) else Some s.
Definition latin_dec (s : bytes) : option bytes := if bytes_eqb s (B "caf" ++ [xe9]) then Some (B "caf" ++ [xc3; xa9]) else Some s.
Example C32_encoded : chat_wire (Some latin_enc) (Some latin_dec) (mk_chat (B "u") (B "caf" ++ [xc3; xa9])) (B "<u> caf" ++ [xe9]).
Proof.
  refine (eq_ind_r (chat_wire _ _ _) (cw_named _ _ (B "u") (B "u") (B "caf" ++ [xc3; xa9]) (B "caf" ++ [xe9]) _ _ _) _); [discriminate| | |vm_compute; reflexivity].
  - split; [split; [reflexivity|split; [reflexivity|apply utf8_text_iff; reflexivity]]|]. split; [vm_compute; discriminate|]. split; [vm_compute; discriminate|]. split; [repeat split; easy_cond|apply no_legacyb_sound; vm_compute; reflexivity].
  - split; [split; [reflexivity|split; [reflexivity|apply utf8_text_iff; reflexivity]]|]. split; [easy_cond|apply no_legacyb_sound; vm_compute; reflexivity].
Qed.
(** The condition on texts without a name is needed. *)
Theorem C32_bracket_needed : exists p, msg_marshal None (MChat (mk_chat [] (B "<a> b"))) = Ok p /\
  msg_unmarshal None (MChat chat0) p = (MChat (mk_chat (B "a") (B "b")), Ok tt).
Proof. eexists. split; [vm_compute; reflexivity|vm_compute; reflexivity]. Qed.
Print Assumptions C32_bracket_needed.

(** ** C33: where a chat line is split *)
(** False in general: here the byte 'c' is neither in the name nor in the text. *)
Theorem C33_split_refuted : exists d m, chat_unmarshal None chat0 (B "<" ++ d) = (m, Ok tt) /\
  d = B "a>bcd>" /\ ch_name m = B "a>b" /\ ch_text m = B "d>" /\
  ~ exists n sp t, d = n ++ B ">" ++ sp ++ t /\ (sp = [] \/ exists r, white r /\ sp = utf8_of r) /\
    name_unmarshal None n = Ok (ch_name m) /\ string_unmarshal None t = Ok (ch_text m).
Proof.
  exists (B "a>bcd>"), (mk_chat (B "a>b") (B "d>")). split; [vm_compute; reflexivity|]. do 3 (split; [reflexivity|]).
  intros (n & sp & t & E & _ & N & _). cbn [ch_name] in N.
  do 6 (destruct n as [|? n]; [cbn in E; try discriminate; injection E as E; subst; vm_compute in N; discriminate|cbn in E; injection E as <- E]).
  destruct n; discriminate.
Qed.
Print Assumptions C33_split_refuted.
(** True for every line that does not end with a second '>'. Missing: lines of the form
    <name>text>, for which the above is an example. *)
Theorem C33_split_partial : forall dec m d m', d <> [] -> ~ (exists a b, d = a ++ B ">" ++ b ++ B ">") ->
  chat_unmarshal dec m (B "<" ++ d) = (m', Ok tt) ->
  exists n sp t, d = n ++ B ">" ++ sp ++ t /\ (sp = [] \/ exists r, white r /\ sp = utf8_of r) /\
    name_unmarshal dec n = Ok (ch_name m') /\ string_unmarshal dec t = Ok (ch_text m').
Proof. exact chat_split. Qed.
Print Assumptions C33_split_partial.
Example C33_case : (~ exists a b, B "abc> d>e" = a ++ B ">" ++ b ++ B ">") /\
  chat_unmarshal None (mk_chat (B "old") (B "old")) (B "<abc> d>e") = (mk_chat (B "abc") (B "d>e"), Ok tt).
Proof.
  split; [|vm_compute; reflexivity]. intros (a & b & E). assert (L : last (B "abc> d>e") x00 = last ((a ++ B ">" ++ b) ++ B ">") x00) by (rewrite E, <- !app_assoc; reflexivity).
  change (B ">") with [">"%byte] in L at 2. rewrite last_last in L. discriminate.
Qed.
(** A lone '<' is accepted as an empty name. *)
Theorem C33_lone_bracket : msg_unmarshal None (MChat chat0) (B "<") = (MChat chat0, Ok tt).
Proof. vm_compute. reflexivity. Qed.
Print Assumptions C33_lone_bracket.

(** ** C34: private messages *)
Theorem C34_private : forall enc dec m p, pm_wire enc dec m p -> round_trip enc dec (MPm m) p.
Proof. wired. Qed.
Print Assumptions C34_private.
Theorem C34_mcto : forall enc dec m p, mcto_wire enc dec m p -> round_trip enc dec (MMCTo m) p.
Proof. wired. Qed.
Print Assumptions C34_mcto.
Example C34_pm_case : pm_wire None None (mk_pm (B "user one") (B "me") (B "m<e>") (B "hi $there|")) (B "user one From: me $<m&lt;e&gt;> hi &#36;there&#124;").
Proof. by_wire (pw None None (B "user one") (B "user one") (B "me") (B "me") (B "m<e>") (B "m<e>") (B "hi $there|") (B "hi $there|") _ _ _ _ _). Qed.
Example C34_mcto_case : mcto_wire None None (mk_mcto (B "target") (B "me") (B "a b $c")) (B "target $me a b &#36;c").
Proof. by_wire (mw None None (B "target") (B "target") (B "me") (B "me") (B "a b $c") (B "a b $c") _ _ _ _). Qed.
(** The conditions are needed. *)
Theorem C34_conditions_needed :
  (exists p, msg_marshal None (MPm (mk_pm (B "a From: b") (B "c") (B "n") (B "t"))) = Ok p /\
     fst (msg_unmarshal None (MPm pm0) p) <> MPm (mk_pm (B "a From: b") (B "c") (B "n") (B "t"))) /\
  (exists p, msg_marshal None (MMCTo (mk_mcto (B "a") (B "b c") (B "t"))) = Ok p /\
     fst (msg_unmarshal None (MMCTo mcto0) p) = MMCTo (mk_mcto (B "a") (B "b") (B "c t"))).
Proof. split; (eexists; split; [vm_compute; reflexivity|vm_compute]); [discriminate|reflexivity]. Qed.
Print Assumptions C34_conditions_needed.

(** ** C35: connection requests *)
Theorem C35_connect : forall enc dec m p, ctm_wire enc dec m p -> round_trip enc dec (MCtm m) p.
Proof. wired. Qed.
Print Assumptions C35_connect.
Theorem C35_reverse : forall enc dec m p, rctm_wire enc dec m p -> round_trip enc dec (MRevCtm m) p.
Proof. wired. Qed.
Print Assumptions C35_reverse.
(** The encoder accepts no message with a missing or superfluous source, without target or of another kind. *)
Theorem C35_source : forall enc m p, ctm_marshal enc m = Ok p ->
  (ct_kind m = 1%Z <-> ct_src m <> []) /\ ct_targ m <> [] /\ (ct_kind m = 0 \/ ct_kind m = 1 \/ ct_kind m = 2)%Z.
Proof. exact ctm_source. Qed.
Print Assumptions C35_source.
Example C35_active : ctm_wire None None (mk_ctm (B "john") [] (B "192.168.1.2:412") 0 true) (B "john 192.168.1.2:412S").
Proof. by_wire (ctw_active None None (B "john") (B "john") (B "192.168.1.2:412") true _ _ _ _ _ _ _). Qed.
Example C35_request : ctm_wire None None (mk_ctm (B "john") (B "p eter") (B "192.168.1.2:412") 1 false) (B "john 192.168.1.2:412N p eter").
Proof. by_wire (ctw_request None None (B "john") (B "john") (B "192.168.1.2:412") false (B "p eter") (B "p eter") _ _ _ _ _ _). Qed.
Example C35_response : ctm_wire None None (mk_ctm (B "john") [] (B "192.168.1.2:412") 2 true) (B "john 192.168.1.2:412RS").
Proof. by_wire (ctw_response None None (B "john") (B "john") (B "192.168.1.2:412") true _ _ _ _). Qed.
Example C35_reverse_case : rctm_wire None None (mk_rctm (B "a|b") (B "c d")) (B "a&#124;b c d").
Proof. by_wire (rcw None None (B "a|b") (B "a|b") (B "c d") (B "c d") _ _ _). Qed.
Example C35_rejected : (exists e, ctm_marshal None (mk_ctm (B "john") [] (B "x") 1 false) = Err e) /\ (exists e, ctm_marshal None (mk_ctm (B "john") (B "s") (B "x") 0 false) = Err e) /\
  exists p, ctm_marshal None (mk_ctm (B "john") (B "s") (B "x") 1 false) = Ok p.
Proof. repeat split; eexists; vm_compute; reflexivity. Qed.
(** The condition on the address is needed. *)
Theorem C35_suffix_needed : exists p, msg_marshal None (MCtm (mk_ctm (B "j") [] (B "HOSTS") 0 false)) = Ok p /\
  msg_unmarshal None (MCtm ctm0) p = (MCtm (mk_ctm (B "j") [] (B "HOST") 0 true), Ok tt).
Proof. eexists. split; [vm_compute; reflexivity|vm_compute; reflexivity]. Qed.
Print Assumptions C35_suffix_needed.

(** ** C36: user information *)
Theorem C36_myinfo : forall enc dec m p, myinfo_wire enc dec m p -> round_trip enc dec (MMyInfo m) p.
Proof. wired. Qed.
Print Assumptions C36_myinfo.
(** An unset flag is sent as 1 (normal), an unset mode as a space. *)
Theorem C36_defaults : forall enc n d cl v mode hn hr ho s x c f e sh,
  msg_marshal enc (MMyInfo (mk_myinfo n d cl v mode hn hr ho s x c x00 e sh)) = msg_marshal enc (MMyInfo (mk_myinfo n d cl v mode hn hr ho s x c x01 e sh)) /\
  msg_marshal enc (MMyInfo (mk_myinfo n d cl v x00 hn hr ho s x c f e sh)) = msg_marshal enc (MMyInfo (mk_myinfo n d cl v " " hn hr ho s x c f e sh)).
Proof. split; reflexivity. Qed.
Print Assumptions C36_defaults.
Definition C36_info flag := mk_myinfo (B "ga|lex") (B "d & c <x>") (B "go-dc") (B "0.2") "A" 1 (-2) 3 10 [(B "O", B "5"); (B "TLS", B "yes: no")] (B "100 $") flag (B "a@b") 18446744073709551615%N.
Example C36_case : myinfo_wire None None (C36_info x21)
  (B "$ALL ga&#124;lex d &amp; c <x><go-dc V:0.2,M:A,H:1/-2/3,S:10,O:5,TLS:yes: no>$ $100 &#36;!$a@b$18446744073709551615$").
Proof.
  by_wire (miw None None (B "ga|lex") (B "ga|lex") (B "d & c <x>") (B "d & c <x>") (B "go-dc") (B "0.2") "A" 1 (-2) 3 10 [(B "O", B "5"); (B "TLS", B "yes: no")] (B "100 $") (B "100 $") x21 (B "a@b") (B "a@b") 18446744073709551615%N _ _ _ _ _ _ _ _ _ _ _ _ _ _ _ _ _ _ _ _).
Qed.

(** ** C37: user flags *)
(** False: with the flag byte '$' the line is rejected, with '|' the frame ends early. *)
Theorem C37_flags_refuted : (exists f, f = "$"%byte /\ exists p, msg_marshal None (MMyInfo (C36_info f)) = Ok p /\ exists e, snd (msg_unmarshal None (MMyInfo myinfo0) p) = Err e) /\
  (exists f, f = "|"%byte /\ exists p, msg_marshal None (MMyInfo (C36_info f)) = Ok p /\ In "|"%byte p).
Proof.
  split; eexists; (split; [reflexivity|]); (eexists; split; [vm_compute; reflexivity|]).
  - eexists. vm_compute. reflexivity.
  - apply contains_byte_spec. vm_compute. reflexivity.
Qed.
Print Assumptions C37_flags_refuted.
Theorem C37_dollar_rejected : forall enc dec m m0 p, mi_flag m = "$"%byte -> myinfo_marshal enc m = Ok p -> exists e, snd (myinfo_unmarshal dec m0 p) = Err e.
Proof. exact dollar_flag_rejected. Qed.
Print Assumptions C37_dollar_rejected.
Theorem C37_pipe_breaks_frame : forall enc m p, mi_flag m = "|"%byte -> myinfo_marshal enc m = Ok p -> In "|"%byte p.
Proof. exact pipe_flag_breaks. Qed.
Print Assumptions C37_pipe_breaks_frame.
(** True for all other flags. Missing: the flags '$' and '|', for which it is false, and 0, sent as 1. *)
Theorem C37_flags_partial : forall enc dec m p f, myinfo_wire enc dec m p -> f <> x00 -> f <> "$"%byte -> f <> "|"%byte ->
  Forall (fun x => ~ In "|"%byte x) ([mi_client m; mi_version m; [mi_mode m]] ++ map fst (mi_extra m) ++ map snd (mi_extra m)) ->
  exists p', round_trip enc dec (MMyInfo (set_mi_flag m f)) p' /\ ~ In "|"%byte p'.
Proof.
  intros enc dec m p f H F0 Fd Fp R. destruct H. eexists. split.
  - apply wire_round; [apply w_myinfo; cbn; apply miw with (flag := f); eassumption|exact I].
  - eapply (payload_no "|" (or_introl eq_refl) enc (MMyInfo _)); [exact I| |apply (wire_encodes enc dec); apply w_myinfo; apply miw with (flag := f); eassumption].
    cbn [raw_fields mi_client mi_version mi_mode mi_flag mi_extra] in *. inversion R as [|? ? R1 Ra]; subst. inversion Ra as [|? ? R2 Rb]; subst. inversion Rb as [|? ? R3 Rc]; subst.
    cbn [app]. constructor; [assumption|]. constructor; [assumption|]. constructor; [assumption|]. constructor; [|assumption]. intros [K|[]]. auto.
Qed.
Print Assumptions C37_flags_partial.
(** IsSet asks for a common bit of the two flags. *)
Theorem C37_is_set : forall f g, flag_is_set f g = true <-> exists i, (i < 8)%N /\ N.testbit (b2n f) i = true /\ N.testbit (b2n g) i = true.
Proof. exact NmdcUserFacts.flag_set_iff. Qed.
Print Assumptions C37_is_set.
Example C37_set_case : flag_is_set x41 x01 = true /\ flag_is_set x41 x02 = false /\ flag_is_set x41 x00 = false.
Proof. vm_compute. auto. Qed.

(** ** C38: searches *)
Theorem C38_search : forall enc dec m p, search_wire enc dec m p -> round_trip enc dec (MSearch m) p.
Proof. wired. Qed.
Print Assumptions C38_search.
(** The documented defaults: type 0 is sent as 1 (any), a search without size restriction has a maximum. *)
Theorem C38_defaults : forall enc a u r x size typ p t,
  search_marshal enc (mk_search a u r x size 0 p t) = search_marshal enc (mk_search a u r x size 1 p t) /\
  search_marshal enc (mk_search a u false x size typ p t) = search_marshal enc (mk_search a u false true size typ p t).
Proof. split; reflexivity. Qed.
Print Assumptions C38_defaults.
Example C38_pattern : search_wire None None (mk_search (B "192.168.0.5:412") [] true false 4096 3 (B "a|b? c d") None)
  (B "192.168.0.5:412 T?F?4096?3?a&#124;b?$c$d").
Proof.
  by_wire (sw_pattern None None (B "192.168.0.5:412") [] (B "192.168.0.5:412") true false 4096 3 (B "a|b? c d") (B "a|b? c d") _ _ _ _ _ _ _).
  - left. conds; reflexivity.
  - unfold pattern_text. conds.
Qed.
Example C38_tth : search_wire None None (mk_search [] (B "ni|ck") false true 0 9 [] (Some h24)) (B "Hub:ni&#124;ck F?T?0?9?TTH:" ++ h24_text).
Proof.
  by_wire (sw_tth None None [] (B "ni|ck") (B "Hub:ni&#124;ck") false true 0 h24 h24_text _ _ _ _).
  right. split; [reflexivity|]. exists (B "ni|ck"). conds. vm_compute. reflexivity.
Qed.

(** ** C39: what becomes of a pattern *)
(** False: a dollar sign arrives as a space. *)
Theorem C39_pattern_refuted : exists p, msg_marshal None (MSearch (mk_search (B "1.2.3.4:5") [] false true 0 1 (B "a$b") None)) = Ok p /\
  msg_unmarshal None (MSearch search0) p = (MSearch (mk_search (B "1.2.3.4:5") [] false true 0 1 (B "a b") None), Ok tt).
Proof. eexists. split; [vm_compute; reflexivity|vm_compute; reflexivity]. Qed.
Print Assumptions C39_pattern_refuted.
(** What arrives for any pattern; hence verbatim exactly for patterns without '$'. *)
Theorem C39_pattern_received : forall enc dec a u who r x size typ p wp, who_wire enc dec a u who -> (r = false -> x = true) -> u64 size -> u64 typ ->
  typ <> 0%N -> typ <> 9%N -> string_text enc dec p wp -> encodes_to dec (dollars wp) (dollars p) ->
  exists t, search_marshal enc (mk_search a u r x size typ p None) = Ok t /\
    search_unmarshal dec search0 t = (mk_search a u r x size typ (map (fun c => if beq c "$" then " "%byte else c) p) None, Ok tt).
Proof. exact search_pattern_received. Qed.
Print Assumptions C39_pattern_received.
Theorem C39_verbatim_iff : forall p : bytes, map (fun c => if beq c "$" then " "%byte else c) p = p <-> ~ In "$"%byte p.
Proof.
  induction p as [|c p IH]; cbn [map In]; [tauto|]. destruct (beq_spec c "$") as [->|N].
  - split; [discriminate|intros H; exfalso; apply H; left; reflexivity].
  - split.
    + intros [= H]. apply IH in H. intros [K|K]; contradiction.
    + intros H. f_equal. apply IH. intros K. apply H. right. exact K.
Qed.
Print Assumptions C39_verbatim_iff.
Example C39_case : who_wire None None (B "1.2.3.4:5") [] (B "1.2.3.4:5") /\ string_text None None (B "a$ |b") (B "a$ |b") /\ encodes_to None (dollars (B "a$ |b")) (dollars (B "a$ |b")).
Proof. split; [left; conds; reflexivity|]. conds. Qed.

(** ** C40: search results *)
Theorem C40_result : forall enc dec m p, sr_wire enc dec m p -> round_trip enc dec (MSR m) p.
Proof. wired. Qed.
Print Assumptions C40_result.
Example C40_file : sr_wire None None (mk_sr (B "us|er") [B "dir 1"; B "sub"; B "file.txt"] false 437 (-3) 4 [] (Some h24) (B "hub.net:411") (B "peer"))
  (B "us&#124;er dir 1\sub\file.txt" ++ [x05] ++ B "437 -3/4" ++ [x05] ++ B "TTH:" ++ h24_text ++ B " (hub.net:411)" ++ [x05] ++ B "peer").
Proof.
  by_wire (srw_file None None (B "us|er") (B "us|er") [B "dir 1"; B "sub"; B "file.txt"] 437 (-3) 4 [] (Some h24) (B "TTH:" ++ h24_text) (B "hub.net:411") (B "peer") (x05 :: B "peer") _ _ _ _ _ _ _ _ _ _ _ _); unfold sr_part; conds.
  - split; [reflexivity|]. exists h24_text. conds. reflexivity.
  - right. split; [discriminate|]. exists (B "peer"). conds. vm_compute. reflexivity.
Qed.
Example C40_directory : sr_wire None None (mk_sr (B "user") [B "a/b"; B "c 3"] true 0 3 4 (B "My(Hub|") None [] [])
  (B "user a/b\c 3 3/4" ++ [x05] ++ B "My(Hub&#124; ()").
Proof.
  by_wire (srw_dir None None (B "user") (B "user") [B "a/b"; B "c 3"] 3 4 (B "My(Hub|") None (B "My(Hub&#124;") [] [] [] _ _ _ _ _ _ _ _ _ _); unfold sr_part; conds.
  - exists (B "My(Hub|"). conds. vm_compute. reflexivity.
  - left. split; reflexivity.
Qed.

(** ** C41: paths in search results *)
(** False: the escapes are not undone. *)
Theorem C41_path_refuted : exists p, msg_marshal None (MSR (mk_sr (B "u") [B "a&b"] false 1 1 1 (B "h") None (B "x:1") [])) = Ok p /\
  msg_unmarshal None (MSR sr0) p = (MSR (mk_sr (B "u") [B "a&amp;b"] false 1 1 1 (B "h") None (B "x:1") []), Ok tt).
Proof. eexists. split; [vm_compute; reflexivity|vm_compute; reflexivity]. Qed.
Print Assumptions C41_path_refuted.
(** What arrives: the components as escaped (and encoded) for the line. *)
Theorem C41_path_received : forall enc dec f wf path ws isdir size free total hub tth ph addr to pt,
  name_text enc dec f wf -> ~ In " "%byte wf -> path <> [] -> Forall2 (path_piece enc dec) path ws ->
  string_text enc dec (sep_by (B "\") path) (sep_by (B "\") ws) ->
  (isdir = false -> ~ slots_like (sep_by (B "\") (map (flat_map entity_string) ws))) -> (isdir = true -> size = 0%N /\ (0 <= free)%Z /\ (0 <= total)%Z) ->
  u64 size -> i64 free -> i64 total -> sr_hub_wire enc dec hub tth ph -> ~ In ")"%byte addr -> sr_to_wire enc dec to pt ->
  exists t, sr_marshal enc (mk_sr f path isdir size free total hub tth addr to) = Ok t /\
    sr_unmarshal dec sr0 t = (mk_sr f (map (flat_map entity_string) ws) isdir size free total hub tth addr to, Ok tt).
Proof. exact sr_path_received. Qed.
Print Assumptions C41_path_received.
Example C41_case : path_piece None None (B "a&b$") (B "a&b$") /\ string_text None None (B "x\a&b$") (B "x\a&b$") /\ ~ slots_like (sep_by (B "\") (map (flat_map entity_string) [B "x"; B "a&b$"])).
Proof. unfold path_piece. conds. Qed.
(** False also for a file whose name looks like slots: it arrives as a directory with another name. *)
Theorem C41_slots_refuted : exists p, msg_marshal None (MSR (mk_sr (B "u") [B "a 1/2"] false 1 3 4 (B "h") None (B "x:1") [])) = Ok p /\
  exists m, msg_unmarshal None (MSR sr0) p = (MSR m, Ok tt) /\ sr_isdir m = true /\ sr_path m = [B "a"].
Proof. eexists. split; [vm_compute; reflexivity|]. eexists. split; [vm_compute; reflexivity|split; reflexivity]. Qed.
Print Assumptions C41_slots_refuted.

(** ** C42: searches by hash *)
Theorem C42_active : forall enc dec m p, sa_wire m p -> round_trip enc dec (MSA m) p.
Proof. wired. Qed.
Print Assumptions C42_active.
Theorem C42_passive : forall enc dec m p, sp_wire enc dec m p -> round_trip enc dec (MSP m) p.
Proof. wired. Qed.
Print Assumptions C42_passive.
Example C42_case : sa_wire (mk_sa h24 (B "1.2.3.4:5")) (h24_text ++ B " 1.2.3.4:5") /\ sp_wire None None (mk_sp h24 (B "ni|ck")) (h24_text ++ B " ni&#124;ck").
Proof.
  split; [by_wire (saw h24 h24_text (B "1.2.3.4:5") _)|by_wire (spw None None h24 h24_text (B "ni|ck") (B "ni|ck") _ _)].
Qed.

(** ** C43: file transfers *)
Theorem C43_get : forall enc dec m p, adcget_wire enc dec m p -> round_trip enc dec (MAdcGet m) p.
Proof. wired. Qed.
Print Assumptions C43_get.
Theorem C43_send : forall enc dec m p, adcsnd_wire enc dec m p -> round_trip enc dec (MAdcSnd m) p.
Proof. wired. Qed.
Print Assumptions C43_send.
Theorem C43_direction : forall enc dec m p, direction_wire m p -> round_trip enc dec (MDirection m) p.
Proof. wired. Qed.
Print Assumptions C43_direction.
Example C43_cases :
  adcget_wire None None (mk_adcget (B "file") (B "TTH/AB|C") 18446744073709551615 (-1) true (Some 7%N)) (B "file TTH/AB&#124;C 18446744073709551615 -1 ZL1 DB7") /\
  adcget_wire None None (mk_adcget (B "list") (B "/") 0 9223372036854775807 false None) (B "list / 0 9223372036854775807") /\
  adcsnd_wire None None (mk_adcsnd (B "tthl") (B "x$") 5 18446744073709551615 true) (B "tthl x&#36; 5 18446744073709551615 ZL1") /\
  direction_wire (mk_direction true 32767) (B "Upload 32767").
Proof.
  split; [by_wire (agw None None (B "file") (B "file") (B "TTH/AB|C") (B "TTH/AB|C") 18446744073709551615 (-1) true (Some 7%N) _ _ _ _ _ _ _); left; reflexivity|].
  split; [by_wire (agw None None (B "list") (B "list") (B "/") (B "/") 0 9223372036854775807 false None _ _ _ _ _ _ _); right; lia|].
  split; [by_wire (asw None None (B "tthl") (B "tthl") (B "x$") (B "x$") 5 18446744073709551615 true _ _ _ _ _ _)|].
  by_wire (diw true 32767 _).
Qed.

(** ** C44: the length of a request *)
(** False: lengths of 2^63 and more arrive as negative numbers, even as -1. *)
Theorem C44_length_refuted : exists m, msg_unmarshal None (MAdcGet adcget0) (B "file / 0 18446744073709551615") = (MAdcGet m, Ok tt) /\ ag_length m = (-1)%Z.
Proof. eexists. split; [vm_compute; reflexivity|reflexivity]. Qed.
Print Assumptions C44_length_refuted.
(** Exactly what arrives. *)
Theorem C44_length : forall dec m d m', adcget_unmarshal dec m d = (m', Ok tt) ->
  exists t i s l rest, d = t ++ B " " ++ i ++ B " " ++ s ++ B " " ++ l ++ rest /\
    ~ In " "%byte t /\ ~ In " "%byte i /\ ~ In " "%byte s /\ ~ In " "%byte l /\ (rest = [] \/ starts_with (B " ") rest) /\
    (l = B "-1" /\ ag_length m' = (-1)%Z \/
     l <> B "-1" /\ exists v, decimal l v /\ (v < 2 ^ 64)%N /\ ((v < 2 ^ 63)%N -> ag_length m' = Z.of_N v) /\ ((2 ^ 63 <= v)%N -> ag_length m' = (Z.of_N v - 2 ^ 64)%Z)).
Proof. exact adcget_length. Qed.
Print Assumptions C44_length.
Example C44_case : exists m, adcget_unmarshal None adcget0 (B "file TTH/X 0 1025 ZL1") = (m, Ok tt) /\ ag_length m = 1025%Z.
Proof. eexists. split; [vm_compute; reflexivity|reflexivity]. Qed.

(** ** C45: hub information *)
Theorem C45_hubinfo : forall enc dec m p, hubinfo_wire enc dec m p -> round_trip enc dec (MHubInfo m) p.
Proof. wired. Qed.
Print Assumptions C45_hubinfo.
Theorem C45_text : forall enc dec k s w, string_text enc dec s w -> In k [KHubName; KHubTopic; KSetTopic] ->
  round_trip enc dec (MString k s) (flat_map entity_string w).
Proof. wired. Qed.
Print Assumptions C45_text.
Theorem C45_supports : forall enc dec l p, supports_wire l p -> round_trip enc dec (MSupports l) p.
Proof. wired. Qed.
Print Assumptions C45_supports.
Theorem C45_failover : forall enc dec l p, failover_wire l p -> round_trip enc dec (MFailOver l) p.
Proof. wired. Qed.
Print Assumptions C45_failover.
Theorem C45_raw_text : forall enc dec k s, round_trip enc dec (MText k s) s.
Proof. intros. apply wire_round; [constructor|exact I]. Qed.
Print Assumptions C45_raw_text.
Theorem C45_lock : forall enc dec m p, lock_wire m p -> round_trip enc dec (MLock m) p.
Proof. wired. Qed.
Print Assumptions C45_lock.
Example C45_hubinfo_case : hubinfo_wire None None (mk_hubinfo (B "Hub $1") (B "hub.net:411") (B "a|b") 100 (-1) 3 4 (B "soft ware") (B "1.0") (B "own") (B "st") (B "CP1251"))
  (B "Hub &#36;1$hub.net:411$a&#124;b$100$-1$3$4$soft ware 1.0$own$st$CP1251").
Proof. by_wire (hiw None None (B "Hub $1") (B "Hub $1") (B "hub.net:411") (B "a|b") (B "a|b") 100 (-1) 3 4 (B "soft ware") (B "1.0") (B "own") (B "own") (B "st") (B "st") (B "CP1251") _ _ _ _ _ _ _ _ _ _ _ _ _ _). Qed.
Example C45_lists : supports_wire [B "NoHello"; B "TTHSearch"] (B "NoHello TTHSearch") /\ failover_wire [B "a:411"; B ""; B "b c"] (B "a:411,,b c").
Proof. split; [by_wire (suw [B "NoHello"; B "TTHSearch"] _)|by_wire (fow [B "a:411"; B ""; B "b c"] _ _)]. Qed.
Example C45_lock_cases : lock_wire (mk_lock false (B "ABC") (B "go-dc x") (B "hub.net")) (B "EXTENDEDPROTOCOLABC Pk=go-dc xRef=hub.net") /\
  lock_wire (mk_lock true (B "ABC") [] (B "hub.net")) (B "ABC Ref=hub.net").
Proof. split; [by_wire (lkw false (B "ABC") (B "go-dc x") (B "hub.net") _ _ _)|by_wire (lkw true (B "ABC") [] (B "hub.net") _ _ _)]. Qed.
(** The conditions are needed. *)
Theorem C45_conditions_needed :
  (exists p, msg_marshal None (MFailOver []) = Ok p /\ msg_unmarshal None (MFailOver []) p = (MFailOver [[]], Ok tt)) /\
  (exists p, msg_marshal None (MLock (mk_lock true (B "EXTENDEDPROTOCOLx") [] [])) = Ok p /\ msg_unmarshal None (MLock lock0) p = (MLock (mk_lock false (B "x") [] []), Ok tt)) /\
  (exists p, msg_marshal None (MSupports [B "a b"]) = Ok p /\ msg_unmarshal None (MSupports []) p = (MSupports [B "a"; B "b"], Ok tt)).
Proof. repeat split; (eexists; split; [vm_compute; reflexivity|vm_compute; reflexivity]). Qed.
Print Assumptions C45_conditions_needed.

(** ** C46: user lists *)
Theorem C46_names : forall enc dec k l p, names_wire enc dec l p -> round_trip enc dec (MNames k l) p.
Proof. wired. Qed.
Print Assumptions C46_names.
Theorem C46_userip : forall enc dec l p, userip_wire enc dec l p -> round_trip enc dec (MUserIP l) p.
Proof. wired. Qed.
Print Assumptions C46_userip.
Example C46_cases : names_wire None None [B "op|1"; []; B "op 2"] (B "op&#124;1$$$$op 2$$") /\ names_wire None None [] (B "$$") /\
  userip_wire None None [(B "a b", B "1.2.3.4"); (B "c", B "::1")] (B "a b 1.2.3.4$$c ::1$$").
Proof.
  split; [by_wire (nmw_some None None [B "op|1"; []; B "op 2"] [B "op|1"; []; B "op 2"] _ _ _)|]. split; [constructor|].
  by_wire (uiw None None [(B "a b", B "1.2.3.4"); (B "c", B "::1")] [B "a b"; B "c"] _ _ _).
Qed.
(** The excluded lists do not come back. *)
Theorem C46_excluded :
  (exists p, msg_marshal None (MNames KOpList [[]]) = Ok p /\ msg_unmarshal None (MNames KOpList []) p = (MNames KOpList [], Ok tt)) /\
  (exists p, msg_marshal None (MUserIP []) = Ok p /\ msg_unmarshal None (MUserIP []) p = (MUserIP [([], [])], Ok tt)).
Proof. split; (eexists; split; [vm_compute; reflexivity|vm_compute; reflexivity]). Qed.
Print Assumptions C46_excluded.

(** ** C47: user commands *)
Theorem C47_command : forall enc dec m p, ucmd_wire enc dec m p -> round_trip enc dec (MUserCommand m) p.
Proof. wired. Qed.
Print Assumptions C47_command.
Example C47_cases : ucmd_wire None None (mk_ucmd 1 3 [B "# Led"; B "Stats $"] (B "<%[mynick]> !stats|")) (B "1 3 # Led\Stats &#36; $<%[mynick]> !stats&#124;") /\
  ucmd_wire None None (mk_ucmd 255 1 [] []) (B "255 1").
Proof.
  split; [|by_wire (uw_bare None None 255 1 _ _)].
  by_wire (uw_full None None 1 3 [B "# Led"; B "Stats $"] [B "# Led"; B "Stats $"] (B "<%[mynick]> !stats|") (B "<%[mynick]> !stats|") _ _ _ _ _ _ _ _); unfold ucmd_part; conds.
Qed.
(** A command with only a path cannot be decoded. *)
Theorem C47_path_only : exists p e, msg_marshal None (MUserCommand (mk_ucmd 1 3 [B "a"] [])) = Ok p /\ snd (msg_unmarshal None (MUserCommand ucmd0) p) = Err e.
Proof. do 2 eexists. split; [vm_compute; reflexivity|vm_compute; reflexivity]. Qed.
Print Assumptions C47_path_only.

(** ** C48: simple messages *)
Theorem C48_name : forall enc dec k s w, name_text enc dec s w -> round_trip enc dec (MName k s) (flat_map entity_name w).
Proof. wired. Qed.
Print Assumptions C48_name.
Theorem C48_string : forall enc dec k s w, string_text enc dec s w -> round_trip enc dec (MString k s) (flat_map entity_string w).
Proof. wired. Qed.
Print Assumptions C48_string.
Theorem C48_no_arguments : forall enc dec k, round_trip enc dec (MNoArgs k) [].
Proof. intros. apply wire_round; [constructor|exact I]. Qed.
Print Assumptions C48_no_arguments.
Theorem C48_error : forall enc dec k e p, err_wire enc dec e p -> round_trip enc dec (MErr k e) p.
Proof. wired. Qed.
Print Assumptions C48_error.
Theorem C48_unknown : forall enc dec t d, is_registered t = false -> round_trip enc dec (MRaw t d) d.
Proof. intros. apply wire_round; [constructor|assumption]. Qed.
Print Assumptions C48_unknown.
(** The type of a message is the command it is registered with. *)
Theorem C48_registry : forall t, command (new_message t) = t.
Proof. exact new_message_type. Qed.
Print Assumptions C48_registry.
Example C48_cases : name_text None None (B "n|<>&") (B "n|<>&") /\ string_text None None (B "$|&amp;") (B "$|&amp;") /\
  err_wire None None (Some (B "no $")) (B "no &#36;") /\ err_wire None None None [] /\ is_registered (B "Unknown") = false.
Proof.
  split; [easy_cond|]. split; [easy_cond|]. split; [by_wire (erw_some None None (B "no $") (B "no $") _ _)|]. split; [constructor; reflexivity|vm_compute; reflexivity].
Qed.
(** The messages do not overwrite each other's command. *)
Theorem C48_registry_distinct : NoDup (map msg_type registered).
Proof. apply distinct_sound. vm_compute. reflexivity. Qed.
Print Assumptions C48_registry_distinct.
