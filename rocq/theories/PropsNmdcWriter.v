(** Property theorems C58-C60: the NMDC message writer of nmdc/writer.go, and the way from
    it to the message reader.  Specifications: SpecNmdcWriter.v, SpecReader.v, SpecWriter.v.
    Proofs: NmdcWriterFacts.v, NmdcEndToEnd.v.

    [dinit], [dstep] are an arbitrary compressor, [act] an arbitrary inflater, [W] an
    arbitrary type of hook state, [junk] an arbitrary remainder of a failed encoding. *)
From Verif Require Import Base BaseFacts NmdcText NmdcChat NmdcMessage SpecNmdc SpecFrame NmdcDecide LineReader SpecLine LineReaderStream
  LineWriter SpecWriter NmdcReader SpecReader NmdcReaderFacts NmdcWriter SpecNmdcWriter NmdcWriterFacts NmdcEndToEnd
  PropsLineWriter PropsNmdcReader.

(** Runs of the examples are computed call by call. *)
Ltac runs := first [apply nr_nil|eapply nr_cons; [vm_compute; reflexivity|runs]].
Definition no_junk (m : msg) : bytes := B "$Hello ".
Definition wire_of {W dst} (x : nwriter W dst) : bytes := delivered (cn_trace (wr_conn (nw_line x))).

(** ** C58: WriteMsg writes the messages its hooks pass. *)

(** A message dropped by a hook takes all later messages of the call with it, and WriteMsg
    reports success. *)
Theorem C58_dropped_refuted :
  exists (hs : list (unit * msg -> (unit * msg) * hook_res)) m1 m2 f2 x,
    mverdict hs tt m1 tt m1 HDrop /\ mverdict hs tt m2 tt m2 HPass /\ marshal None m2 = Ok f2 /\ f2 <> [] /\
    nruns store_init store no_junk tt (nfresh [] 8 None None hs) [(NMsgs [m1; m2], None); (NFlush, None)] tt x /\
    wr_err (nw_line x) = None /\ wire_of x = [].
Proof.
  exists [fun p => (p, if beq (hd x00 (msg_type (snd p))) "G"%byte then HDrop else HPass)], (MNoArgs KGetPass), (MNoArgs KBadPass), (B "$BadPass|").
  eexists. split; [eapply mv_stop; [reflexivity|discriminate]|]. split; [eapply mv_pass; [reflexivity|constructor]|].
  split; [reflexivity|]. split; [discriminate|]. split; [runs|]. split; vm_compute; reflexivity.
Qed.
Print Assumptions C58_dropped_refuted.

(** What is written exactly: for any sequence of calls that leaves the writer without error,
    the lines of [explained] (see SpecNmdcWriter.v), in order and without anything in between. *)
Theorem C58_written {W dst} dinit dstep junk script size tmo enc (hs : list (W * msg -> (W * msg) * hook_res)) s0 h s (x : nwriter W dst) :
  nruns dinit dstep junk s0 (nfresh script size tmo enc hs) h s x -> Forall no_switch h -> wr_err (nw_line x) = None ->
  exists ops pending, explained hs enc s0 h ops s /\ concat (op_lines ops) = wire_of x ++ pending /\
    (forall h' e, h = h' ++ [(NFlush, e)] -> pending = []).
Proof. exact (arrives dinit dstep junk script size tmo enc hs s0 h s x). Qed.
Print Assumptions C58_written.

(** With hooks that never drop silently and calls that report success this is everything,
    each message as the hooks have left it. *)
Theorem C58_all_written_partial {W dst} dinit dstep junk script size tmo enc (hs : list (W * msg -> (W * msg) * hook_res)) s0 h e s (x : nwriter W dst) :
  nruns dinit dstep junk s0 (nfresh script size tmo enc hs) (h ++ [(NFlush, e)]) s x -> Forall no_switch h -> Forall same_encoder h ->
  wr_err (nw_line x) = None -> never_dropping hs -> Forall (fun r => snd r = None) h ->
  exists its fs, Forall2 (as_left hs) (nop_items h) its /\
    Forall2 (fun it f => match it with None => f = B "|" | Some m => marshal enc m = Ok f end) its fs /\ wire_of x = concat fs.
Proof.
  intros H Hn Hs He Hd Hr.
  assert (Hn' : Forall no_switch (h ++ [(NFlush, e)])) by (apply Forall_app; split; [exact Hn|repeat constructor]).
  destruct (arrives dinit dstep junk _ _ _ _ _ _ _ _ _ H Hn' He) as (ops & pending & K1 & K2 & K3). rewrite (K3 h e eq_refl), app_nil_r in K2.
  destruct (explained_flush _ _ _ _ _ _ _ K1) as (ops1 & L1 & -> & _). destruct (explained_all _ _ _ _ _ _ L1 Hd Hr Hn Hs) as (its & I1 & I2).
  exists its, (op_lines ops1). split; [exact I1|]. split; [exact I2|]. rewrite op_lines_app in K2. cbn [op_lines flat_map] in K2. rewrite app_nil_r in K2. now symmetry.
Qed.
Print Assumptions C58_all_written_partial.

(** A hook that counts and fails on the third message; a keep-alive; a change of encoding. *)
Definition C58_hook (p : nat * msg) : (nat * msg) * hook_res := ((S (fst p), snd p), if (fst p =? 2)%nat then HErr (EText "third") else HPass).
(** A hook that adds an exclamation mark to names. *)
Definition shout (m : msg) : msg := match m with MName k n => MName k (n ++ B "!") | _ => m end.
Definition shouting {W} (p : W * msg) : (W * msg) * hook_res := ((fst p, shout (snd p)), HPass).
Example shouting_passes {W} : passing (W:=W) shout [shouting].
Proof.
  intros s m s' m' v K. inversion K as [|? ? ? ? ? ? ? ? ? E K'|? ? ? ? ? ? ? E N]; subst.
  - injection E as <- <-. inversion K'; subst. auto.
  - injection E as <- <- <-. now destruct N.
Qed.
Example C58_instance : exists x,
  nruns store_init store no_junk 0 (nfresh [] 8 None None [C58_hook])
    [(NMsgs [MNoArgs KGetPass; MName KHello (B "bob")], None); (NKeep, None); (NMsgs [MNoArgs KGetPass; MNoArgs KGetPass], Some (EText "third"));
     (NSetEnc (Some (fun s => Some (rev s))), None); (NMsgs [MName KHello (B "bob!")], None); (NFlush, None)] 4 x /\
  wr_err (nw_line x) = None /\ wire_of x = B "$GetPass|$Hello bob||$Hello !bob|".
Proof. eexists. split; [runs|]. split; vm_compute; reflexivity. Qed.
Example C58_instance_all : exists x,
  nruns store_init store no_junk 3 (nfresh [WR (Some 20) None] 8 None None [C58_hook])
    ([(NMsgs [MNoArgs KGetPass; MName KHello (B "bob")], None); (NKeep, None)] ++ [(NFlush, None)]) 5 x /\
  never_dropping [C58_hook] /\ wr_err (nw_line x) = None /\ wire_of x = B "$GetPass|$Hello bob||".
Proof.
  eexists. split; [cbn [app]; runs|]. split; [|split; vm_compute; reflexivity]. intros s m s' m' K. inversion K as [|? ? ? ? ? ? ? ? ? E K'|? ? ? ? ? ? ? E N]; subst.
  - inversion K'.
  - unfold C58_hook in E. cbn [fst snd] in E. destruct (s =? 2)%nat; discriminate.
Qed.
(** The name is written as the hook has left it, and so are the names of a later call. *)
Example C58_instance_changed : exists x,
  nruns store_init store no_junk 3 (nfresh [] 8 None None [C58_hook; shouting])
    ([(NMsgs [MNoArgs KGetPass; MName KHello (B "bob")], None); (NKeep, None); (NMsgs [MName KQuit (B "al")], None)] ++ [(NFlush, None)]) 6 x /\
  wr_err (nw_line x) = None /\ wire_of x = B "$GetPass|$Hello bob!||$Quit al!|".
Proof. eexists. split; [cbn [app]; runs|]. split; vm_compute; reflexivity. Qed.

(** ** C59: a message that cannot be encoded leaves no trace. *)

(** The messages before it are written, its error is returned, and the writer is as after
    WriteMsg of the messages before it, up to the scratch buffer. *)
Theorem C59_bad_message {W dst} dstep junk (s : W) pre fs m post (x : nwriter W dst) s1 x1 s2 m2 e :
  wr_hooks (nw_line x) = [] -> wr_err (nw_line x) = None ->
  write_msg dstep junk s pre x = WRet (None, s1, x1) -> taken (nw_msg x) (nw_enc x) s pre fs s1 None -> length fs = length pre ->
  mverdict (nw_msg x) s1 m s2 m2 HPass -> marshal (nw_enc x) m2 = Err e ->
  exists x2, write_msg dstep junk s (pre ++ m :: post) x = WRet (Some e, s2, x2) /\ same_writer x1 x2.
Proof. exact (bad_in_batch dstep junk s pre fs m post x s1 x1 s2 m2 e). Qed.
Print Assumptions C59_bad_message.

(** As the first message of a call, even with line hooks. *)
Theorem C59_first_message {W dst} dstep junk (s : W) m ms (x : nwriter W dst) s1 m1 e :
  wr_err (nw_line x) = None -> mverdict (nw_msg x) s m s1 m1 HPass -> marshal (nw_enc x) m1 = Err e ->
  exists x', write_msg dstep junk s (m :: ms) x = WRet (Some e, s1, x') /\ same_writer x x'.
Proof. exact (bad_message dstep junk s m ms x s1 m1 e). Qed.
Print Assumptions C59_first_message.

(** The scratch buffer never matters: whatever can be done afterwards has the same results. *)
Theorem C59_as_if_not_attempted {W dst} dinit dstep junk (s : W) (x y : nwriter W dst) h s' x' :
  same_writer x y -> nruns dinit dstep junk s x h s' x' -> exists y', nruns dinit dstep junk s y h s' y' /\ same_writer x' y'.
Proof. intros H K. exact (nruns_alike dinit dstep junk s x h s' x' K y H). Qed.
Print Assumptions C59_as_if_not_attempted.

Example C59_instance : exists x,
  nruns store_init store no_junk 0 (nfresh [] 4 None (Some (fun s => if contains_byte "*"%byte s then None else Some s)) [])
    [(NMsgs [MNoArgs KGetPass; MName KHello (B "b*b"); MNoArgs KBadPass], Some (EText "transform")); (NMsgs [MName KHello (B "bob")], None); (NFlush, None)] 0 x /\
  nw_mbuf x <> [] /\ wr_err (nw_line x) = None /\ wire_of x = B "$GetPass|$Hello bob|".
Proof. eexists. split; [runs|]. split; [vm_compute; discriminate|split; vm_compute; reflexivity]. Qed.

(** ** C60: end to end.  The hooks pass every message, changed by an arbitrary function [ed]. *)

Theorem C60_end_to_end {W dst W' Z'} dinit dstep junk (act : Z' -> zaction Z') script size tmo enc dec (hs : list (W * msg -> (W * msg) * hook_res)) ed s0 h e s (x : nwriter W dst)
    fs maxline cfg (g : W' -> W') c w n :
  nruns dinit dstep junk s0 (nfresh script size tmo enc hs) (h ++ [(NFlush, e)]) s x -> Forall no_switch h -> Forall same_encoder h ->
  wr_err (nw_line x) = None -> passing ed hs ->
  Forall2 (sends enc dec (nc_max_cmd cfg)) (items_as ed h) fs -> Forall (fun l => within maxline (length l)) fs -> within maxline 1 ->
  Forall quiet c -> script_data c = wire_of x ->
  nc_raw cfg = [] -> nc_msg cfg = [] -> nc_keep_alive cfg = Some (fun w => (g w, None)) ->
  Forall (fun r => snd r = None) h /\
  exists w2 R2, eventually (fun f => read_msgs act f n w (nreader_on maxline dec cfg c) = Some (msgs_then_eof n (messages (items_as ed h)), w2, R2)).
Proof.
  intros H Hn Hs He Hp Hi Hw Hw1 Hq Hd Hraw Hmsg Hka.
  destruct (written_items dinit dstep junk _ _ _ _ _ _ _ _ _ _ _ _ _ _ H Hn Hs He Hp Hi) as [K1 K2]. split; [exact K2|].
  destruct (C54_messages_in_order act enc dec maxline cfg g c (items_as ed h) fs [] w n) as (w2 & R2 & L & _); auto; [|eauto].
  rewrite Hd. unfold wire_of. now rewrite K1, app_nil_r.
Qed.
Print Assumptions C60_end_to_end.

(** A section compressed with ZOn; the reader enables decompression when it reads ZOn. *)
Theorem C60_compressed {W dst W' Z'} dinit dstep junk (act : Z' -> zaction Z') zinit script size tmo enc dec (hs : list (W * msg -> (W * msg) * hook_res)) ed s0 h1 lvl h2 h3 e s
    (x : nwriter W dst) f1 f2 f3 maxline cfg (g : W' -> W') c w n :
  matching act zinit dinit dstep -> (-2 <= lvl <= 9)%Z -> Forall honest script ->
  nruns dinit dstep junk s0 (nfresh script size tmo enc hs) (h1 ++ (NZOn lvl, None) :: h2 ++ (NZOff, None) :: h3 ++ [(NFlush, e)]) s x ->
  Forall no_switch (h1 ++ h2 ++ h3) -> Forall same_encoder (h1 ++ h2 ++ h3) -> wr_err (nw_line x) = None -> passing ed hs ->
  Forall2 (sends enc dec (nc_max_cmd cfg)) (items_as ed h1) f1 -> Forall2 (sends enc dec (nc_max_cmd cfg)) (items_as ed h2) f2 ->
  Forall2 (sends enc dec (nc_max_cmd cfg)) (items_as ed h3) f3 -> (3 <= nc_max_cmd cfg)%Z ->
  Forall (fun l => within maxline (length l)) (f1 ++ f2 ++ f3) -> within maxline 5 ->
  Forall solid c -> script_data c = wire_of x ->
  nc_raw cfg = [] -> nc_msg cfg = [] -> nc_keep_alive cfg = Some (fun w => (g w, None)) ->
  exists w1 r1 r2 w2 R2,
    eventually (fun f => read_msgs act f (S (length (messages (items_as ed h1)))) w (nreader_on maxline dec cfg c) =
      Some (map (fun m => Ok (Some m)) (messages (items_as ed h1) ++ [MNoArgs KZOn]), w1, mkNreader r1 dec cfg)) /\
    eventually (fun f => enable_zlib act zinit f r1 = Some (ROk tt, r2)) /\
    eventually (fun f => read_msgs act f n w1 (mkNreader r2 dec cfg) =
      Some (msgs_then_eof n (messages (items_as ed h2 ++ items_as ed h3)), w2, R2)).
Proof.
  intros Hm Hl Hh H Hn Hs He Hp H1 H2 H3 Hlim Hw Hw5 Hc Hd Hraw Hmsg Hka.
  assert (HZ : sends enc dec (nc_max_cmd cfg) (Some (MNoArgs KZOn)) (B "$ZOn|")).
  { apply se_msg with (p := []); [apply w_noargs| |].
    - split; [exact I|]. split; [constructor|]. split; [exact Hlim|exact I].
    - change (B "$ZOn|") with (B "$" ++ B "ZOn" ++ B "|"). apply fr_bare. discriminate. }
  assert (Hw' : Forall (fun l => within maxline (length l)) (f1 ++ B "$ZOn|" :: f2 ++ f3)).
  { apply Forall_app in Hw. destruct Hw as [A1 A2]. apply Forall_app. split; [exact A1|]. constructor; [exact Hw5|exact A2]. }
  destruct (zlib_end_to_end dinit dstep junk act zinit script size tmo enc dec cfg g hs ed s0 h1 lvl h2 h3 None None e s x f1 f2 f3 maxline c w n
    Hm Hl Hh H eq_refl eq_refl Hn Hs He Hp (Forall2_app H1 (Forall2_cons _ _ HZ (Forall2_nil _))) H2 H3 Hw') as (r1 & r2 & w2 & R2 & K); auto.
  - unfold within in *. lia.
  - exists (Nat.iter (keep_alives (items_as ed h1)) g w), r1, r2, w2, R2. exact K.
Qed.
Print Assumptions C60_compressed.

(** All six items of C54 in batches, written through a buffer of 7 bytes, read in pieces. *)
Definition C60_calls : list (nop * option error) :=
  [(NMsgs [MNoArgs KGetNickList], None); (NFlush, None); (NKeep, None);
   (NMsgs [MName KHello (B "bob"); MChat (mk_chat (B "bob") (B "a|b"))], None); (NKeep, None); (NMsgs [MRaw (B "Foo") (B "1 2")], None)].
Example C60_items : nop_items C60_calls = C54_items. Proof. reflexivity. Qed.
Definition C60_config : ncfg nat := plain (Some (fun n => (S n, None))) [].
Example C60_instance : exists x,
  nruns store_init store no_junk tt (nfresh [] 7 None None []) (C60_calls ++ [(NFlush, None)]) tt x /\ wr_err (nw_line x) = None /\
  wire_of x = concat C54_frames /\
  results (read_msgs nozlib 50 6 0 (nreader_on 100 None C60_config [RD (B "$GetNickL") None; RD (B "ist||$Hello b") None; RD (B "ob|<bob> a&#124;b||$Foo 1 2|") None])) =
    Some (map (fun m => Ok (Some m)) (messages C54_items) ++ [Err EEOF; Err EEOF], 2).
Proof. eexists. split; [unfold C60_calls; cbn [app]; runs|]. split; [vm_compute; reflexivity|]. split; vm_compute; reflexivity. Qed.

(** With the compressor of C16. *)
Example C60_compressed_instance : exists x, let h := [(NMsgs [MNoArgs KGetPass], None)] in
  nruns (fun _ => tt) tag no_junk tt (nfresh [] 7 None None []) (h ++ (NZOn 3, None) :: [(NMsgs [MNoArgs KBadPass], None)] ++ (NZOff, None) :: h ++ [(NFlush, None)]) tt x /\
  wr_err (nw_line x) = None /\
  let c := [RD (wire_of x) None] in
  exists r1 r2,
    results (read_msgs untag 200 2 0 (nreader_on 100 None C60_config c)) = Some ([Ok (Some (MNoArgs KGetPass)); Ok (Some (MNoArgs KZOn))], 0) /\
    read_msgs untag 200 2 0 (nreader_on 100 None C60_config c) = Some ([Ok (Some (MNoArgs KGetPass)); Ok (Some (MNoArgs KZOn))], 0, mkNreader r1 None C60_config) /\
    enable_zlib untag GTag 200 r1 = Some (ROk tt, r2) /\
    results (read_msgs untag 200 3 0 (mkNreader r2 None C60_config)) = Some ([Ok (Some (MNoArgs KBadPass)); Ok (Some (MNoArgs KGetPass)); Err EEOF], 0).
Proof.
  eexists. cbv zeta. split; [cbn [app]; runs|]. split; [vm_compute; reflexivity|]. do 2 eexists.
  split; [vm_compute; reflexivity|]. split; [vm_compute; reflexivity|]. split; [vm_compute; reflexivity|]. vm_compute. reflexivity.
Qed.
(** A hook of the writer changes the names; the reader returns the changed messages. *)
Example C60_instance_changed : exists x,
  nruns store_init store no_junk tt (nfresh [] 7 None None [shouting]) ([(NMsgs [MName KHello (B "bob"); MNoArgs KGetPass], None)] ++ [(NFlush, None)]) tt x /\
  wr_err (nw_line x) = None /\ items_as shout [(NMsgs [MName KHello (B "bob"); MNoArgs KGetPass], None)] = [Some (MName KHello (B "bob!")); Some (MNoArgs KGetPass)] /\
  results (read_msgs nozlib 50 3 0 (nreader_on 100 None C60_config [RD (wire_of x) None])) =
    Some ([Ok (Some (MName KHello (B "bob!"))); Ok (Some (MNoArgs KGetPass)); Err EEOF], 0).
Proof. eexists. split; [cbn [app]; runs|]. split; [vm_compute; reflexivity|]. split; vm_compute; reflexivity. Qed.
