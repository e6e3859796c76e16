(** Properties C133 and C134: UnmarshalPacketADC on a packet in use, and packets with messages of a program.  Specification:
    SpecAdcReuse.v, SpecAdcRead.v, SpecAdcWrite.v.  Proofs: AdcReuseFacts.v. *)
From Verif Require Import Base BaseFacts LineReader LineWriter AdcValue AdcMessage AdcPacket AdcWriter AdcReuse SpecAdcRead SpecAdcWrite SpecAdcReuse
  AdcWriteFacts AdcReuseFacts.

(** ** C133: packets in use *)

(** A call succeeds exactly for the data of the grammar, and then nothing of the old packet is left. *)
Theorem C133_read sp p name data p' : unmarshal_into sp p name data = (Ok tt, p') <-> packet_data name (kind_of p) data p'.
Proof. exact (into_ok sp p name data p'). Qed.
Print Assumptions C133_read.

(** A failed call leaves the packet as it was.  This is false for feature packets. *)
Theorem C133_kept_refuted : ~ (forall sp p name data e p', unmarshal_into sp p name data = (Err e, p') -> p' = p).
Proof.
  intros H. specialize (H 3 (PFeature (B "AAAA") [] (ARaw (B "MSG") (B "x"))) (B "SCH") (B "BBBB +TCP4 -NA" ++ [x0a]) _ _ eq_refl). discriminate.
Qed.
Print Assumptions C133_kept_refuted.
(** Exactly when it is false, and what is left: the identifier and selectors are those of the new data, the message is the old one. *)
Theorem C133_left sp p name data r p' : unmarshal_into sp p name data = (r, p') -> r <> Ok tt ->
  (forall q n, half_read data p q n -> p' = q) /\ ((forall q n, ~ half_read data p q n) -> p' = p).
Proof.
  intros H N. split.
  - intros q n X. rewrite (half_into sp p name data q n X) in H. now injection H.
  - intros X. destruct (into_left _ _ _ _ _ _ H N) as [->|[n Y]]; [reflexivity|now destruct (X p' n)].
Qed.
Print Assumptions C133_left.
(** Data that ends in a broken selector is always rejected. *)
Theorem C133_broken sp p name data q n : half_read data p q n -> unmarshal_into sp p name data <> (Ok tt, q).
Proof. intros X. rewrite (half_into sp p name data q n X). destruct (_ <? 5)%nat; discriminate. Qed.
Print Assumptions C133_broken.

(** Calls never panic.  This is false: an InfoPacket without data, and a broken selector with hardly any capacity behind it. *)
Theorem C133_crash_refuted : ~ (forall sp p name data, fst (unmarshal_into sp p name data) <> Panic).
Proof. intros H. apply (H 0 (PInfo AZon) (B "INF") []). reflexivity. Qed.
Print Assumptions C133_crash_refuted.
Theorem C133_crash sp p name data : fst (unmarshal_into sp p name data) = Panic <->
  (kind_of p = "I"%byte /\ data = []) \/ exists q n, half_read data p q n /\ n + 1 + sp < 5.
Proof. exact (into_crash sp p name data). Qed.
Print Assumptions C133_crash.

(** UnmarshalADC of an SID, called by a program: four bytes are taken as they are, anything else is an error and leaves the SID as it was. *)
Theorem C133_sid old s : (length s = 4 -> sid_into old s = (Ok tt, s)) /\ (length s <> 4 -> exists e, sid_into old s = (Err e, old)).
Proof.
  unfold sid_into, Tiger.sid_unmarshal. split; intro H.
  - rewrite H. reflexivity.
  - rewrite (proj2 (Nat.eqb_neq _ _) H). cbn. eauto.
Qed.
Print Assumptions C133_sid.
Example C133_sid_case : sid_into (B "AAAA") (B "BBBB") = (Ok tt, B "BBBB") /\ snd (sid_into (B "AAAA") (B "BBB")) = B "AAAA".
Proof. split; reflexivity. Qed.

(** A call after a failed one is not influenced by it. *)
Theorem C133_again sp sp' p name data name' data' r p1 p2 : unmarshal_into sp p name data = (r, p1) ->
  (unmarshal_into sp' p1 name' data' = (Ok tt, p2) <-> unmarshal_into sp' p name' data' = (Ok tt, p2)).
Proof.
  intros H. rewrite !into_ok. assert (K : kind_of p1 = kind_of p); [|now rewrite K].
  destruct (res_unit_dec r) as [->|N].
  - apply into_ok in H. symmetry. now destruct H.
  - destruct (into_left _ _ _ _ _ _ H N) as [->|(n & o & s & m & id & x & s' & t & -> & -> & _)]; reflexivity.
Qed.
Print Assumptions C133_again.

(** A packet that is used for two lines, and what is left of both when the second is broken. *)
Example C133_case : let p := PFeature (B "AAAA") [(B "NAT0", true)] (ARaw (B "MSG") (B "hi")) in
  unmarshal_into 0 p (B "SCH") (B "BBBB +TCP4 ANx" ++ [x0a]) = (Ok tt, PFeature (B "BBBB") [(B "TCP4", true)] (ARaw (B "SCH") (B "ANx"))) /\
  unmarshal_into 3 p (B "SCH") (B "BBBB +TCP4 -NA" ++ [x0a]) = (Err (EText "short feature"), PFeature (B "BBBB") [(B "TCP4", true)] (ARaw (B "MSG") (B "hi"))) /\
  half_read (B "BBBB +TCP4 -NA" ++ [x0a]) p (PFeature (B "BBBB") [(B "TCP4", true)] (ARaw (B "MSG") (B "hi"))) 3 /\
  unmarshal_into 0 (PUdp (repeat x00 24) AZon) (B "INF") (B "AAAA b" ++ [x0a]) = (Err (EText "short command"), PUdp (repeat x00 24) AZon).
Proof.
  cbv zeta. split; [vm_compute; reflexivity|]. split; [vm_compute; reflexivity|]. split; [|vm_compute; reflexivity].
  exists (B "AAAA"), [(B "NAT0", true)], (ARaw (B "MSG") (B "hi")), (B "BBBB"), (B "+TCP4 -NA"), [(B "TCP4", true)], (B "-NA").
  split; [reflexivity|]. split; [reflexivity|]. split; [apply (hd_more 4 (B "BBBB") " "%byte (B "+TCP4 -NA")); [reflexivity|now left]|].
  split; [apply (pk_with (B "TCP4") (B " -NA")); [reflexivity|]; apply pk_space; constructor|].
  split; [|reflexivity]. exists "-"%byte, (B "NA"). split; [reflexivity|]. split; [now right|cbn; lia].
Qed.

(** ** C134: messages of a program *)

(** MarshalPacketADC appends the line of the packet to the buffer, for every message that appends to it. *)
Theorem C134_line p c d l buf : gives c d MDone -> (line_with p c d l <-> marshal_packet_with p c buf = (buf ++ l, MDone)).
Proof.
  intros G. split; [intros L; exact (with_done p c d l G L buf)|]. intros H. destruct (line_with_form p c d) as (l' & L & _). rewrite (with_done p c d l' G L buf) in H.
  injection H as H. apply app_inv_head in H. now subst.
Qed.
Print Assumptions C134_line.
(** The messages of the package are such messages, with the lines of C110. *)
Theorem C134_package p l buf : gives (as_custom (message p)) (marshal (message p)) MDone /\
  (packet_text p l <-> marshal_packet_with p (as_custom (message p)) buf = (buf ++ l, MDone)).
Proof. split; [apply as_custom_gives|]. rewrite <- line_with_text. apply C134_line. apply as_custom_gives. Qed.
Print Assumptions C134_package.

(** MarshalPacketADC with a message that fails: the buffer has what was written up to this point, and the error is returned. *)
Theorem C134_failed p c d r : gives c d r -> r <> MDone ->
  exists ws, header_text p ws /\ forall buf, marshal_packet_with p c buf = (buf ++ letter p :: join (B " ") (c_cmd c :: ws) ++ B " " ++ d, r).
Proof. exact (with_left p c d r). Qed.
Print Assumptions C134_failed.
Example C134_failed_case : let bad := mkCustom (B "BAD") (fun b => (b ++ B "half", MFail (EText "no"))) in
  gives bad (B "half") (MFail (EText "no")) /\ marshal_packet_with (PBroadcast (B "AAAB") AZon) bad (B "x") = (B "xBBAD AAAB half", MFail (EText "no")).
Proof. cbv zeta. split; [intros b; reflexivity|vm_compute; reflexivity]. Qed.

(** MustMarshal returns what the message appends and panics if it fails. *)
Theorem C134_must c d r : gives c d r -> (r = MDone -> must_marshal c = Ok d) /\ (r <> MDone -> must_marshal c = Panic).
Proof. intros G. unfold must_marshal. rewrite (G []). cbn [app]. split; intros H; [now subst|]. now destruct r. Qed.
Print Assumptions C134_must.
(** It does not panic for messages of the package. *)
Theorem C134_must_package m d : must_marshal (as_custom m) = Ok d <-> message_text m d.
Proof. rewrite message_text_iff. unfold must_marshal. cbn. split; [now intros [= ->]|now intros ->]. Qed.
Print Assumptions C134_must_package.

(** Any calls of the packet writer are calls of the line writer: one for each packet whose message can be encoded, none for a
    packet whose message fails or panics.  The connection, the callbacks and the state are those after these calls. *)
Theorem C134_calls : forall W dst dstep os, appending os -> exists ls, carried os ls /\ (forall ls', carried os ls' -> ls' = ls) /\
  forall (s : W) (x : awriter W dst),
    match line_calls dstep ls s (aw_line x) with
    | WRet (es, s', w') => exists rs x', calls dstep os s x = WRet (rs, s', x') /\ aw_line x' = w' /\ returned os es rs
    | WPan => calls dstep os s x = WPan
    | WStuck => calls dstep os s x = WStuck
    end.
Proof.
  intros W dst dstep os A. destruct (carried_ex os A) as [ls C]. exists ls. split; [exact C|]. split; [exact (carried_unique os ls C)|].
  intros s x. pose proof (calls_carried dstep os ls C s x) as H. destruct (line_calls dstep ls s (aw_line x)) as [[[es s'] w']| |]; [|exact H..].
  destruct H as (rs & m & H & R). exists rs, (mkAwriter w' m). auto.
Qed.
Print Assumptions C134_calls.
(** A packet whose message fails, whatever it writes to the buffer before, can be left out. *)
Theorem C134_without : forall W dst dstep p c a b (s : W) (x : awriter W dst) rs s' x', (forall buf, snd (c_marshal c buf) <> MDone) ->
  calls dstep (a ++ CPacket p c :: b) s x = WRet (rs, s', x') ->
  exists rs1 o rs2 y, rs = rs1 ++ o :: rs2 /\ length rs1 = length a /\ o <> OReturn None /\
    calls dstep (a ++ b) s x = WRet (rs1 ++ rs2, s', y) /\ aw_line y = aw_line x'.
Proof. intros W dst dstep p c a b s x rs s' x' F H. exact (calls_without dstep p c b F a s x rs s' x' H). Qed.
Print Assumptions C134_without.

(** A message that fails after it has written, between two others; a message that panics; and one without payload. *)
Example C134_case :
  let bad := mkCustom (B "BAD") (fun b => (b ++ B "half", MFail (EText "no"))) in
  let pan := mkCustom (B "PAN") (fun b => (b, MPanic)) in
  let foo := mkCustom (B "FOO") (fun b => (b ++ B "x y", MDone)) in
  let os := [CPacket (PHub AZon) foo; CPacket (PHub AZon) bad; CPacket (PInfo AZon) pan; CKeepAlive; CPacket (PBroadcast (B "AAAB") AZon) (as_custom AZof); CFlush] in
  let dstep := fun (d : unit) (_ : dop) => (d, []) in
  appending os /\
  exists x, calls dstep os tt (new_awriter (W:=unit) [] 100) = WRet ([OReturn None; OReturn (Some (EText "no")); OPanic; OReturn None; OReturn None; OReturn None], tt, x) /\
    line_calls dstep [LLine (B "HFOO x y" ++ [x0a]); LLine [x0a]; LLine (B "BZOF AAAB" ++ [x0a]); LFlush] tt (new_writer [] 100) = WRet ([None; None; None; None], tt, aw_line x).
Proof.
  cbv zeta. split.
  - intros p c I. cbn [In] in I. repeat (destruct I as [I|I]; [discriminate I || (injection I as <- <-; do 2 eexists; intros b; cbn [c_marshal as_custom]; try reflexivity; rewrite <- (app_nil_r b) at 1; reflexivity)|]).
    destruct I.
  - eexists. split; vm_compute; reflexivity.
Qed.
