(** Property C142: reading ADC packets whose message types a program has registered.
    Specification: SpecAdcForeign.v.  Proofs: AdcForeignFacts.v. *)
From Verif Require Import Base BaseFacts LineReader SpecLine LineReaderStream AdcText AdcValue AdcMessage AdcPacket AdcReuse AdcReflect AdcReader Registry AdcForeign SpecText SpecAdc SpecAdcMessage
  SpecAdcRead SpecAdcReader SpecAdcStream SpecReflect AdcReadPackets AdcEndToEnd AdcStreamFacts RegistryFacts SpecRegistry PropsAdcPacket PropsReflect SpecAdcForeign AdcForeignFacts.
From Coq Require Import Lia ZArith.

(** Whatever the calls return, they return it in accordance with the specification: for every program, all methods and types,
    all callbacks, in every state of the reader. *)
Theorem C142_calls {W V Z'} (act : Z' -> zaction Z') decode f cs (s : fenv W V) (R : areader (fenv W V) Z') os (s' : fenv W V) R' :
  f_calls act decode f cs s R = Some (os, s', R') ->
  exists h, serves decode (awaited (W:=W) (V:=V) act (ar_keep R)) s (ar_line R) h s' (ar_line R') /\ map fst h = cs /\ map snd h = os /\ ar_keep R' = ar_keep R.
Proof. exact (f_calls_says act decode f cs s R os s' R'). Qed.
Print Assumptions C142_calls.

(** On a stream all calls return, and each takes the next line that is no keep-alive. *)
Theorem C142_stream {W V Z'} (act : Z' -> zaction Z') decode maxline (keep : option (fenv W V -> fenv W V * option error)) c ls rest cs (s : fenv W V) :
  Forall SpecLine.quiet c -> script_data c = concat ls ++ rest -> Forall (is_line x0a) ls -> ~ In x0a rest ->
  Forall (fun l => within maxline (length l)) ls -> within maxline (S (length rest)) ->
  exists h s' ls' R', SpecLine.eventually (fun f => f_calls act decode f cs s (areader_on maxline keep c) = Some (map snd h, s', R')) /\
    map fst h = cs /\ serves decode (gets (W:=W) (V:=V) keep) s ls h s' ls'.
Proof.
  intros Hq Hs HL Hr Hw Hwr. destruct (f_calls_stream act decode keep cs ls s (limited maxline [] c x0a)) as (h & s' & ls' & R' & E & F & S & _).
  - now apply (limited_supplies_nl act maxline c ls rest).
  - exact HL.
  - exists h, s', ls', R'. auto.
Qed.
Print Assumptions C142_stream.

(** The specification leaves nothing open but the texts of errors. *)
Theorem C142_unique {W V} decode (keep : option (fenv W V -> fenv W V * option error)) (s : fenv W V) ls h s1 ls1 h2 s2 ls2 :
  serves decode (gets (W:=W) (V:=V) keep) s ls h s1 ls1 -> serves decode (gets (W:=W) (V:=V) keep) s ls h2 s2 ls2 -> map fst h = map fst h2 ->
  Forall2 alike (map snd h) (map snd h2) /\ s1 = s2 /\ ls1 = ls2.
Proof. intros A B. revert A h2 s2 ls2 B. apply serves_unique. intros. eapply gets_unique; eassumption. Qed.
Print Assumptions C142_unique.

(** DecodeMessage on a packet read by ReadPacketRaw, at any time later, gives what ReadPacket would give then. *)
Theorem C142_later {W V} decode sp l (s s' : fenv W V) p (s1 s2 : fenv W V) x : answered decode (FPacketRaw sp) l s s' (FAPacket (Ok p)) ->
  f_decode decode p s1 = (s2, x) -> s' = s /\ answered decode (FPacket sp) l s1 s2 (FAPacket x).
Proof.
  intros A D. destruct (raw_answer decode sp l s s' p A) as (-> & q & -> & R). split; [reflexivity|]. destruct (raw_message l q R) as (name & d & M).
  destruct (f_decode_says decode q name d s1 s2 x M D) as (y & Y & ->). eapply an_packet; eauto.
Qed.
Print Assumptions C142_later.

(** A second DecodeMessage does nothing once the message is decoded.  A message that was not registered is decoded as soon as
    there is a type for it. *)
Theorem C142_again {W V} decode sp l (s s' : fenv W V) p (s1 s2 : fenv W V) x : answered decode (FPacket sp) l s s' (FAPacket (Ok p)) ->
  f_decode decode p s1 = (s2, x) ->
  match fp_msg p with
  | Some _ => s2 = s1 /\ x = Ok p
  | None => answered decode (FPacket sp) l s1 s2 (FAPacket x)
  end.
Proof.
  intros A D. destruct (packet_answer decode sp l s s' p A) as (q & name & d & m & -> & R & M & Y). cbn [fp_msg]. destruct m as [v|].
  - unfold f_decode in D. cbn [fp_msg] in D. now injection D as <- <-.
  - destruct (f_decode_says decode q name d s1 s2 x M D) as (y & Y' & ->). eapply an_packet; eauto.
Qed.
Print Assumptions C142_again.

(** DecodeMessageTo gives the payload to the message if the names are equal and the packet is not decoded yet; else it fails
    and does nothing. *)
Theorem C142_to {W V} decode c sp l (s s' : fenv W V) p name d want un (s1 : fenv W V) : c = FPacket sp \/ c = FPacketRaw sp ->
  answered decode c l s s' (FAPacket (Ok p)) -> raw (fp_packet p) name d ->
  (c = FPacketRaw sp \/ no_entry (snd s) name -> want = name -> f_decode_to p want un s1 = un d s1) /\
  (want <> name \/ (c = FPacket sp /\ exists t, entry (snd s) name t) -> exists e, f_decode_to p want un s1 = (s1, MFail e)).
Proof.
  intros C A M. unfold raw in M. assert (P : match fp_msg p with None => c = FPacketRaw sp \/ no_entry (snd s) name | Some _ => c = FPacket sp /\ exists t, entry (snd s) name t end).
  { destruct C as [->| ->].
    - destruct (packet_answer decode sp l s s' p A) as (q & n' & d' & m & -> & _ & M' & Y). cbn [fp_msg fp_packet] in *. unfold raw in M'. rewrite M in M'. injection M' as <- <-.
      inversion Y; subst; eauto.
    - destruct (raw_answer decode sp l s s' p A) as (_ & q & -> & _). now left. }
  assert (EX : forall t, entry (snd s) name t -> ~ no_entry (snd s) name) by (intros t E N; apply find_entry in E; apply find_no_entry in N; congruence).
  unfold f_decode_to. rewrite M. destruct (fp_msg p) as [v|].
  - split; [|intros _; eauto]. destruct P as [-> (t & E)]. intros [K|K]; [discriminate|now elim (EX t E)].
  - split.
    + intros _ ->. now rewrite (proj2 (bytes_eqb_true _ _) eq_refl).
    + intros [K|[-> (t & E)]]; [rewrite (proj2 (bytes_eqb_false _ _) K); eauto|]. destruct P as [P|P]; [discriminate|now elim (EX t E)].
Qed.
Print Assumptions C142_to.

(** With the types of the package alone this is the reader of C105. *)
Theorem C142_package {W Z'} (act : Z' -> zaction Z') pf f c (s : fenv W amsg) (R : areader (fenv W amsg) Z') a (s1 : fenv W amsg) R1 :
  run_rcall act pf f c s R = Some (a, s1, R1) -> snd s1 = fst (register_all adc_init []) ->
  exists a', f_call act (fun _ d v s => (s, unmarshal pf d v)) f (foreign_call c) s R = Some (a', s1, R1) /\ plain_answer a' = a.
Proof.
  intros H M. assert (K : forall n, find_type (snd s1) n = match registered n with Some m => Some (adc_type m) | None => None end).
  { intros n. rewrite M. assert (E : fst (register_all adc_init []) = map (fun c => (call_name c, fst c)) adc_init) by (vm_compute; reflexivity). rewrite E.
    unfold adc_init, registered. generalize registry as l. induction l as [|m l IH]; [reflexivity|].
    cbn [map find_type find fst]. change (call_name (adc_type m, m)) with (cmd m). destruct (bytes_eqb (cmd m) n); [reflexivity|exact IH]. }
  assert (RV : forall n d, f_receive (fun _ d v s => (s, unmarshal pf d v)) n d s1 = (s1, match registered n with None => Ok None | Some _ =>
     match unmarshal_message pf n d with Ok m => Ok (Some m) | Err e => Err e | Panic => Panic end end)).
  { intros n d. unfold f_receive, unmarshal_message. rewrite K. destruct (registered n) as [m|]; [|reflexivity]. cbn [adc_type go_zero go_pointer]. destruct (unmarshal pf d m); reflexivity. }
  destruct (next_packet act f f (ar_keep R) s (ar_line R)) as [[[x s0] r0]|] eqn:N.
  - rewrite (respond_call act pf f c s R x s0 r0 N) in H. injection H as <- <- <-.
    assert (UM : forall n d, registered n = None -> unmarshal_message pf n d = Ok (ARaw n d)) by (intros n d E; unfold unmarshal_message; now rewrite E).
    assert (SR : forall p n d, message p = ARaw n d -> set_message (ARaw n d) p = p) by (intros p n d E; destruct p; cbn [message set_message] in *; now subst).
    assert (MS : forall n d, exists a, f_message (fun _ d v s => (s, unmarshal pf d v)) n d s0 = (s0, a) /\ plain_answer a = AMessage (unmarshal_message pf n d)).
    { intros n d. unfold f_message. rewrite RV. destruct (registered n) as [m|] eqn:G; [|rewrite (UM _ _ G); eexists; split; reflexivity].
      destruct (unmarshal_message pf n d); eexists; split; reflexivity. }
    destruct x as [l|e|]; [|destruct c; cbn [foreign_call f_call respond bind]; rewrite N; eexists; split; reflexivity..].
    destruct c as [sp|sp|sp|sp]; cbn [foreign_call f_call respond bind]; rewrite N; cbn [f_answer].
    + unfold decode_packet. destruct (decode_packet_raw sp l) as [p|e|] eqn:D; cbn [bind]; [|eexists; split; reflexivity..].
      apply (packet_iff sp) in D. destruct (raw_message l p D) as (name & d & Q). unfold raw in Q.
      unfold f_decode. cbn [fp_msg fp_packet]. rewrite Q, RV. unfold decode_message. rewrite Q. destruct (registered name) as [m|] eqn:G.
      * destruct (unmarshal_message pf name d); eexists; split; reflexivity.
      * rewrite (UM _ _ G). cbn [bind]. rewrite (SR _ _ _ Q). eexists; split; reflexivity.
    + destruct (decode_packet_raw sp l) as [p|e|]; eexists; split; reflexivity.
    + destruct (decode_packet_raw sp l) as [p|e|] eqn:D; cbn [bind]; [|eexists; split; reflexivity..].
      apply (packet_iff sp) in D. destruct (raw_message l p D) as (name & d & Q). unfold raw in Q. destruct p; cbn [message] in Q; subst; try (eexists; split; reflexivity).
      destruct (MS name d) as (a & -> & E). exists a. split; [reflexivity|exact E].
    + destruct (decode_packet_raw sp l) as [p|e|] eqn:D; cbn [bind]; [|eexists; split; reflexivity..].
      apply (packet_iff sp) in D. destruct (raw_message l p D) as (name & d & Q). unfold raw in Q. destruct p; cbn [message] in Q; subst; try (eexists; split; reflexivity).
      destruct (MS name d) as (a & -> & E). exists a. split; [reflexivity|exact E].
  - destruct c; cbn [run_rcall] in H; unfold read_packet, read_packet_raw, read_info, read_client, with_packet in H; rewrite N in H; discriminate.
Qed.
Print Assumptions C142_package.

(** A structure of a program that arrives unchanged (C141) in the text is what ReadPacket returns on the other side, if its type
    is registered there and has the methods of a message itself. *)
Theorem C142_structure {W} M pf sp p name fs vs ws (s : fenv W (list gfield * list gval)) t : appending_methods M -> orderly fs -> all_arrive M pf fs vs ws ->
  raw p name (join (B " ") ws) -> length name = 3 -> ~ In x00 name -> ~ In x00 (join (B " ") ws) -> parts_ok p -> payload_ok p ->
  entry (snd s) name t -> go_zero t = (fs, map (fun f => blank (gf_type f)) fs) -> go_pointer t = false ->
  exists l, (forall buf, marshal_packet_with p (g_message M name (SStruct fs vs)) buf = (buf ++ l, MDone)) /\
    answered (g_decode M pf) (FPacket sp) l s s (FAPacket (Ok (mkFp p (Some (fs, vs))))).
Proof.
  intros A O W' R L N D P Y E Z G. destruct (C141_packet M pf sp p name fs vs ws A O W' R L N D P Y) as (l & H1 & H2 & _). exists l. split; [exact H1|].
  destruct (C141_roundtrip M pf fs vs ws O W') as [_ U].
  apply (an_packet (g_decode M pf) (FPacket sp) l s sp p name (join (B " ") ws) s (Ok (Some (fs, vs)))); [reflexivity|now apply (packet_iff sp)|exact R|].
  apply (rc_value _ _ _ _ t); [exact E| |exact G]. rewrite Z. unfold g_decode. cbn [fst snd]. now rewrite U.
Qed.
Print Assumptions C142_structure.

(** For the example: a type that is registered by the program, one that has the methods of the pointer only, and a connection
    with the packet of C141, another one before it, a keep-alive and the rest of a line. *)
Definition C142_type : gotype (list gfield * list gval) := mkGo (fun _ => B "ABC") (sample, map (fun f => blank (gf_type f)) sample) false.
(** The other type *)
Definition C142_other : gotype (list gfield * list gval) := mkGo (fun _ => B "XYZ") (sample, map (fun f => blank (gf_type f)) sample) true.
(** The lines *)
Definition C142_lines : list bytes :=
  map (fun s => s ++ [x0a]) [B "BABC AAAB abc NIx"; []; B "BABC AAAB abc NIa\sb PO0 TAx TA AG5"; B "IABC abc"; B "CXYZ abc"; B "IABC abc POx"; B "IQUI AAAB"].
(** What the structure holds *)
Definition C142_value : list gval := [VStr (B "cba"); VBool false; VStr (B "a b"); VInt 0; VSlice (Some [VStr (B "x"); VStr []]); VSlice None; VPtr (Some (VInt 5))].
Example C142_case : let s := concat C142_lines ++ B "rest" in let c := [RD (firstn 30 s) None; RD (skipn 30 s) None] in
  Forall SpecLine.quiet c /\ script_data c = concat C142_lines ++ B "rest" /\ Forall (is_line x0a) C142_lines /\
  match f_calls (fun _ : unit => ZLast []) (g_decode sample_methods (fun _ _ => FErr)) 200
    [FPacket 0; FRegister C142_type (sample, []); FRegister C142_type (sample, []); FPacket 0; FClient 0; FRegister C142_other (sample, []); FClient 0; FInfo 0; FInfo 0; FPacketRaw 0]
    (0, []) (areader_on 100 (Some (fun '(n, r) => ((S n, r), None))) c) with
  | Some (os, (n, r), _) => n = 1 /\ map fst r = [B "ABC"; B "XYZ"] /\ entry r (B "ABC") C142_type /\ os =
      [FAPacket (Ok (mkFp (PBroadcast (B "AAAB") (ARaw (B "ABC") (B "abc NIx"))) None)); FADone false; FADone true;
       FAPacket (Ok (mkFp (PBroadcast (B "AAAB") (ARaw (B "ABC") (B "abc NIa\sb PO0 TAx TA AG5"))) (Some (sample, C142_value))));
       FAMessage (Err (EText "expected client command")); FADone false; FAMessage Panic; FAMessage (Err (EText "syntax")); FAMessage (Ok (inl (B "QUI", B "AAAB"))); FAPacket (Err EEOF)]
  | None => False
  end.
Proof.
  cbv zeta. split; [repeat constructor; right; reflexivity|]. split; [vm_compute; reflexivity|]. split.
  { unfold C142_lines. cbn [map]. repeat constructor; eexists; (split; [reflexivity|apply contains_byte_false; reflexivity]). }
  vm_compute. split; [reflexivity|]. split; [reflexivity|]. split; [|reflexivity].
  exists [], [(B "XYZ", C142_other)]. split; [reflexivity|constructor].
Qed.
