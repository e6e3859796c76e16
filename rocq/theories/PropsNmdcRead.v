(** Properties C86 to C98: which NMDC payloads are accepted, and what they mean. *)
From Coq Require Import Permutation.
From Verif Require Import Base SpecText SpecHash SpecNmdc SpecRead SpecCommand NmdcText NmdcChat NmdcHub NmdcFiles NmdcUser NmdcMessage.
From Verif Require Import HtmlReadFacts NmdcReadFacts NmdcReadChat NmdcReadCmd NmdcReadFiles NmdcReadHub NmdcReadUser NmdcReadMsg.

(** ** C86: text *)
Theorem C86_string : forall dec data s, string_unmarshal dec data = Ok s <-> str_read dec data s.
Proof. exact str_iff. Qed.
Print Assumptions C86_string.
Theorem C86_name : forall dec data s, name_unmarshal dec data = Ok s <-> name_read dec data s.
Proof. exact name_iff. Qed.
Print Assumptions C86_name.
Theorem C86_unescape : forall data s, unescape_bytes data = s <-> unescaped data s.
Proof. intros data s. rewrite unescaped_iff. split; congruence. Qed.
Print Assumptions C86_unescape.
Example C86_case : str_read None (B "a/%DCN036%/&#124;&amp&lt;&notit;") (B "a$|&<" ++ [xc2; xac] ++ B "it;") /\
  name_read None (B "&#65;&#x;b&") (B "A" ++ [xef; xbf; xbd] ++ B "b&") /\ (forall s, ~ name_read None (B "a$b") s) /\ forall s, ~ str_read None [xff] s.
Proof.
  split; [apply str_iff; vm_compute; reflexivity|]. split; [apply name_iff; vm_compute; reflexivity|].
  split; intros s H; [apply name_iff in H|apply str_iff in H]; vm_compute in H; discriminate.
Qed.

(** ** C87: chat *)
Theorem C87_chat : forall dec data m, chat_unmarshal dec chat0 data = (m, Ok tt) <-> chat_read dec data m.
Proof. exact chat_reads. Qed.
Print Assumptions C87_chat.
Example C87_case : chat_read None (B "<user> hi <b> there") (mk_chat (B "user") (B "hi <b> there")) /\
  chat_read None (B "<user>hi") (mk_chat (B "user") (B "hi")) /\ chat_read None (B "plain > text") (mk_chat [] (B "plain > text")) /\
  chat_read None (B "<") (mk_chat [] []) /\ forall m, ~ chat_read None (B "<no end") m.
Proof. repeat split; try (apply chat_reads; vm_compute; reflexivity). intros m H. apply chat_reads in H. vm_compute in H. discriminate. Qed.

(** ** C88: messages to one user *)
Theorem C88_private : forall dec data m, pm_unmarshal dec pm0 data = (m, Ok tt) <-> pm_read dec data m.
Proof. exact pm_reads. Qed.
Print Assumptions C88_private.
Theorem C88_mcto : forall dec data m, mcto_unmarshal dec mcto0 data = (m, Ok tt) <-> mcto_read dec data m.
Proof. exact mcto_reads. Qed.
Print Assumptions C88_mcto.
Example C88_case : pm_read None (B "bob From: al $<al> x From: y $<z> ") (mk_pm (B "bob") (B "al") (B "al") (B "x From: y $<z> ")) /\
  mcto_read None (B "bob $al hi $ there") (mk_mcto (B "bob") (B "al") (B "hi $ there")) /\ forall m, ~ pm_read None (B "bob From: al <al> x") m.
Proof. split; [apply pm_reads; vm_compute; reflexivity|]. split; [apply mcto_reads; vm_compute; reflexivity|]. intros m H. apply pm_reads in H. vm_compute in H. discriminate. Qed.

(** ** C89: connections *)
Theorem C89_connect : forall dec data m, ctm_unmarshal dec ctm0 data = (m, Ok tt) <-> ctm_read dec data m.
Proof. exact ctm_reads. Qed.
Print Assumptions C89_connect.
Theorem C89_reverse : forall dec data m, rctm_unmarshal dec rctm0 data = (m, Ok tt) <-> rctm_read dec data m.
Proof. exact rctm_reads. Qed.
Print Assumptions C89_reverse.
Example C89_case : ctm_read None (B "bob 10.0.0.1:412NS al") (mk_ctm (B "bob") (B "al") (B "10.0.0.1:412") 1 true) /\
  ctm_read None (B "bob 10.0.0.1:412R") (mk_ctm (B "bob") [] (B "10.0.0.1:412") 2 false) /\
  rctm_read None (B "al bob") (mk_rctm (B "al") (B "bob")) /\ forall m, ~ ctm_read None (B "bob") m.
Proof.
  split; [apply ctm_reads; vm_compute; reflexivity|]. split; [apply ctm_reads; vm_compute; reflexivity|]. split; [apply rctm_reads; vm_compute; reflexivity|].
  intros m H. apply ctm_reads in H. vm_compute in H. discriminate.
Qed.

(** ** C90: commands for a menu *)
Theorem C90_command : forall dec data m, ucmd_unmarshal dec ucmd0 data = (m, Ok tt) <-> ucmd_read dec data m.
Proof. exact ucmd_reads. Qed.
Print Assumptions C90_command.
Example C90_case : ucmd_read None (B " 1 3 a\\b  $<%[mynick]> !x|") (mk_ucmd 1 3 [B "a"; B "b"] (B "<%[mynick]> !x|")) /\
  ucmd_read None (B "255 7 ") (mk_ucmd 255 7 [] []) /\ forall m, ~ ucmd_read None (B "x 1 a$b") m.
Proof.
  split; [apply ucmd_reads; vm_compute; reflexivity|]. split; [apply ucmd_reads; vm_compute; reflexivity|]. intros m H. apply ucmd_reads in H. vm_compute in H. discriminate.
Qed.

(** ** C91: transfers *)
Theorem C91_get : forall dec data m, adcget_unmarshal dec adcget0 data = (m, Ok tt) <-> adcget_read dec data m.
Proof. exact adcget_reads. Qed.
Print Assumptions C91_get.
Theorem C91_send : forall dec data m, adcsnd_unmarshal dec adcsnd0 data = (m, Ok tt) <-> adcsnd_read dec data m.
Proof. exact adcsnd_reads. Qed.
Print Assumptions C91_send.
Theorem C91_direction : forall data m, direction_unmarshal direction0 data = (m, Ok tt) <-> direction_read data m.
Proof. exact direction_reads. Qed.
Print Assumptions C91_direction.
Example C91_case : adcget_read None (B "file a&#32;b 7 -1 XX DB5 ZL1 DB6 ") (mk_adcget (B "file") (B "a b") 7 (-1) true (Some 6%N)) /\
  adcsnd_read None (B "file TTH/X 0 12 ZL1") (mk_adcsnd (B "file") (B "TTH/X") 0 12 true) /\ direction_read (B "Upload  9 ") (mk_direction true 9) /\
  (forall m, ~ adcget_read None (B "file a 7") m) /\ forall m, ~ direction_read (B "Upload 32768") m.
Proof.
  split; [apply adcget_reads; vm_compute; reflexivity|]. split; [apply adcsnd_reads; vm_compute; reflexivity|]. split; [apply direction_reads; vm_compute; reflexivity|].
  split; intros m H; [apply adcget_reads in H|apply direction_reads in H]; vm_compute in H; discriminate.
Qed.

(** ** C92: search *)
Theorem C92_search : forall dec data m, search_unmarshal dec search0 data = (m, Ok tt) <-> search_read dec data m.
Proof. exact search_reads. Qed.
Print Assumptions C92_search.
Example C92_case : search_read None (B "1.2.3.4:5 T?F? 10?1?a$b?c") (mk_search (B "1.2.3.4:5") [] true false 10 1 (B "a b?c") None) /\
  search_read None (B "Hub:al T?T?-3?2?x") (mk_search [] (B "al") false true 0 2 (B "x") None) /\
  search_read None (B "Hub:al F?T?0?9?TTH:LWPNACQDBZRYXW3VHJVCJ64QBZNGHOHHHZWCLNQ$")
    (mk_search [] (B "al") false true 0 9 [] (Some (let '(_, h) := Tiger.hash_unmarshal_base32 (repeat x00 24) (B "LWPNACQDBZRYXW3VHJVCJ64QBZNGHOHHHZWCLNQ") in h))) /\
  forall m, ~ search_read None (B "1.2.3.4:5 T?F?10?1") m.
Proof.
  split; [apply search_reads; vm_compute; reflexivity|]. split; [apply search_reads; vm_compute; reflexivity|]. split; [apply search_reads; vm_compute; reflexivity|].
  intros m H. apply search_reads in H. vm_compute in H. discriminate.
Qed.

(** ** C93: results *)
Theorem C93_result : forall dec data m, sr_unmarshal dec sr0 data = (m, Ok tt) <-> sr_read dec data m.
Proof. exact sr_reads. Qed.
Print Assumptions C93_result.
Example C93_case : sr_read None (B "al a\d 1/2" ++ [x05] ++ B "Hub (1.2.3.4:5)") (mk_sr (B "al") [B "a"; B "d"] true 0 1 2 (B "Hub") None (B "1.2.3.4:5") []) /\
  sr_read None (B "al a\b.x" ++ [x05] ++ B "100 1/2" ++ [x05] ++ B "Hub (1.2.3.4:5)" ++ [x05] ++ B "bob")
    (mk_sr (B "al") [B "a"; B "b.x"] false 100 1 2 (B "Hub") None (B "1.2.3.4:5") (B "bob")) /\
  forall m, ~ sr_read None (B "al a\b.x" ++ [x05] ++ B "100 1" ++ [x05] ++ B "Hub (1.2.3.4:5)") m.
Proof. split; [apply sr_reads; vm_compute; reflexivity|]. split; [apply sr_reads; vm_compute; reflexivity|]. intros m H. apply sr_reads in H. vm_compute in H. discriminate. Qed.

(** ** C94: short searches *)
Theorem C94_active : forall data m, sa_unmarshal sa0 data = (m, Ok tt) <-> sa_read data m.
Proof. exact sa_reads. Qed.
Print Assumptions C94_active.
Theorem C94_passive : forall dec data m, sp_unmarshal dec sp0 data = (m, Ok tt) <-> sp_read dec data m.
Proof. exact sp_reads. Qed.
Print Assumptions C94_passive.
Example C94_case : let h := snd (Tiger.hash_unmarshal_base32 (repeat x00 24) (B "LWPNACQDBZRYXW3VHJVCJ64QBZNGHOHHHZWCLNQ")) in
  sa_read (B "LWPNACQDBZRYXW3VHJVCJ64QBZNGHOHHHZWCLNQ 1.2.3.4:5") (mk_sa h (B "1.2.3.4:5")) /\
  sp_read None (B "LWPNACQDBZRYXW3VHJVCJ64QBZNGHOHHHZWCLNQ al") (mk_sp h (B "al")) /\
  forall m, ~ sa_read (B "LWPNACQDBZRYXW3VHJVCJ64QBZNGHOHHHZWCLNQ") m.
Proof.
  split; [apply sa_reads; vm_compute; reflexivity|]. split; [apply sp_reads; vm_compute; reflexivity|]. intros m H. apply sa_reads in H. vm_compute in H. discriminate.
Qed.

(** ** C95: user information *)
Theorem C95_myinfo : forall dec data m, myinfo_unmarshal dec myinfo0 data = (m, Ok tt) -> myinfo_read dec data m.
Proof. exact myinfo_reads. Qed.
Print Assumptions C95_myinfo.
Theorem C95_accepted : forall dec data m, myinfo_read dec data m -> exists m', myinfo_unmarshal dec myinfo0 data = (m', Ok tt) /\ myinfo_alike m' m.
Proof. exact myinfo_reads_back. Qed.
Print Assumptions C95_accepted.
Example C95_case : myinfo_read None (B "$ALL al some <b> text<++ V:0.1,m:A,H:1/2/3,S:4,,O:5,k:x,O:6>$ $LAN(T3)" ++ [x01] ++ B "$a@b$ 77 $")
    (mk_myinfo (B "al") (B "some <b> text") (B "++") (B "0.1") "A" 1 2 3 4 [(B "O", B "6"); (B "K", B "x")] (B "LAN(T3)") x01 (B "a@b") 77) /\
  myinfo_read None (B "$ALL al $P$$$$") (mk_myinfo (B "al") [] [] [] "P" 0 0 0 0 [] [] x00 [] 0) /\
  forall m, ~ myinfo_read None (B "$ALL al x$A$$$") m.
Proof.
  split; [apply myinfo_reads; vm_compute; reflexivity|]. split; [apply myinfo_reads; vm_compute; reflexivity|].
  intros m H. apply myinfo_reads_back in H as (m' & H & _). vm_compute in H. discriminate.
Qed.

(** ** C96: lists *)
Theorem C96_names : forall dec data l, names_unmarshal dec [] data = (l, Ok tt) <-> names_read dec data l.
Proof. exact names_reads. Qed.
Print Assumptions C96_names.
Theorem C96_userip : forall dec data l, userip_unmarshal dec data = (l, Ok tt) <-> userip_read dec data l.
Proof. exact userip_reads. Qed.
Print Assumptions C96_userip.
Theorem C96_supports : forall data l, supports_unmarshal data = l <-> supports_read data l.
Proof. exact supports_reads. Qed.
Print Assumptions C96_supports.
Theorem C96_failover : forall data l, failover_unmarshal data = l <-> failover_read data l.
Proof. exact failover_reads. Qed.
Print Assumptions C96_failover.
Example C96_case : names_read None (B "a$$b$$$$c") [B "a"; B "b"; []; B "c"] /\ userip_read None (B "a b 1.2.3.4$$c$$" ++ [x0d]) [(B "a b", B "1.2.3.4"); (B "c", [])] /\
  supports_read (B "  UserIP2  ZPipe ") [B "UserIP2"; B "ZPipe"] /\ failover_read (B "a,,b") [B "a"; []; B "b"] /\ forall l, ~ names_read None (B "a$b") l.
Proof.
  split; [apply names_reads; vm_compute; reflexivity|]. split; [apply userip_reads; vm_compute; reflexivity|]. split; [apply supports_reads; vm_compute; reflexivity|].
  split; [apply failover_reads; vm_compute; reflexivity|]. intros l H. apply names_reads in H. vm_compute in H. discriminate.
Qed.

(** ** C97: hub *)
Theorem C97_hubinfo : forall dec data m, hubinfo_unmarshal dec hubinfo0 data = (m, Ok tt) <-> hubinfo_read dec data m.
Proof. exact hubinfo_reads. Qed.
Print Assumptions C97_hubinfo.
Theorem C97_lock : forall data m, lock_unmarshal data = m <-> lock_read data m.
Proof. exact lock_reads. Qed.
Print Assumptions C97_lock.
Theorem C97_error : forall dec data e, err_unmarshal dec None data = (e, Ok tt) <-> err_read dec data e.
Proof. exact err_reads. Qed.
Print Assumptions C97_error.
Example C97_case : hubinfo_read None (B "Hub$addr$desc$1$2$3$4$YnHub x 1.0$own") (mk_hubinfo (B "Hub") (B "addr") (B "desc") 1 2 3 4 (B "YnHub x") (B "1.0") (B "own") [] []) /\
  lock_read (B "EXTENDEDPROTOCOLabc Pk=xRef=y") (mk_lock false (B "abc") (B "x") (B "y")) /\ lock_read (B "abc x") (mk_lock true (B "abc") (B "x") []) /\
  err_read None (B "no") (Some (B "no")) /\ forall m, ~ hubinfo_read None (B "Hub$addr$desc$x") m.
Proof.
  split; [apply hubinfo_reads; vm_compute; reflexivity|]. split; [apply lock_reads; vm_compute; reflexivity|]. split; [apply lock_reads; vm_compute; reflexivity|].
  split; [apply err_reads; vm_compute; reflexivity|]. intros m H. apply hubinfo_reads in H. vm_compute in H. discriminate.
Qed.

(** ** C98: every message *)
Theorem C98_decoded : forall dec t data m, msg_unmarshal dec (new_message t) data = (m, Ok tt) -> command m = t /\ reads dec data m.
Proof. exact decoded_reads. Qed.
Print Assumptions C98_decoded.
Theorem C98_accepted : forall dec data m, reads dec data m -> exists m', msg_unmarshal dec (new_message (command m)) data = (m', Ok tt) /\ msg_alike m' m.
Proof. exact reads_decoded. Qed.
Print Assumptions C98_accepted.
Theorem C98_unique : forall dec data m m', reads dec data m -> reads dec data m' -> command m = command m' -> msg_alike m m'.
Proof. exact reads_unique. Qed.
Print Assumptions C98_unique.
Theorem C98_rejected : forall dec t data, snd (msg_unmarshal dec (new_message t) data) <> Ok tt <-> forall m, command m = t -> ~ reads dec data m.
Proof.
  intros dec t data. split.
  - intros H m <- R. change (command m) with (msg_type m) in *. apply reads_decoded in R as (m' & R & _). apply H. now rewrite R.
  - intros H E. destruct (msg_unmarshal dec (new_message t) data) as [m r] eqn:D. cbn in E. subst r. apply decoded_reads in D as [T R]. now apply (H m).
Qed.
Print Assumptions C98_rejected.
Example C98_case : reads None [] (MNoArgs KGetPass) /\ reads None (B "anything") (MRaw (B "Foo") (B "anything")) /\ reads None (B "x") (MText KKey (B "x")) /\
  (forall m, command m = B "GetPass" -> ~ reads None (B "x") m).
Proof.
  split; [constructor|]. split; [apply (decoded_reads None (B "Foo")); vm_compute; reflexivity|]. split; [constructor|].
  apply C98_rejected. vm_compute. discriminate.
Qed.
