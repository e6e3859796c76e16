(** Property theorems C54-C57: the NMDC message reader of nmdc/reader.go.
    Specifications: SpecReader.v.  Proofs: NmdcReaderFacts.v, NmdcReaderTypes.v, NmdcReaderCalls.v.

    [act] is an arbitrary inflater, [W] an arbitrary type of hook state. *)
From Verif Require Import Base BaseFacts Utf8 NmdcText NmdcChat NmdcMessage SpecCommand SpecNmdc SpecFrame NmdcDecide
  LineReader SpecLine LineReaderStream NmdcReader SpecReader NmdcReaderFacts NmdcReaderTypes NmdcReaderCalls.

(** For the examples: no compression, plain configuration. *)
Definition nozlib (z : unit) : zaction unit := ZLast [].
Definition plain {W} (ka : option (W -> W * option error)) (hs : list (W * msg -> (W * msg) * hook_res)) : ncfg W := mkNcfg 32 ka [] None None hs.
Definition results {A B C} (x : option (A * B * C)) : option (A * B) :=
  match x with Some (a, b, _) => Some (a, b) | None => None end.

(** ** C54: ReadMsg delivers the messages of the stream in order. *)

Theorem C54_messages_in_order {W Z} (act : Z -> zaction Z) enc dec maxline cfg (g : W -> W) c items fs rest w n :
  Forall quiet c -> script_data c = concat fs ++ rest -> Forall2 (sends enc dec (nc_max_cmd cfg)) items fs -> ~ In "|"%byte rest ->
  Forall (fun l => within maxline (length l)) fs -> within maxline (S (length rest)) ->
  nc_raw cfg = [] -> nc_msg cfg = [] -> nc_keep_alive cfg = Some (fun w => (g w, None)) ->
  exists w2 R2,
    eventually (fun f => read_msgs act f n w (nreader_on maxline dec cfg c) = Some (msgs_then_eof n (messages items), w2, R2)) /\
    nr_dec R2 = dec /\ (length (messages items) < n -> w2 = Nat.iter (keep_alives items) g w).
Proof.
  intros Hq Hs Hi Hr Hw Hwr Hraw Hmsg Hka.
  assert (HL : Forall (is_line "|"%byte) fs).
  { clear - Hi. induction Hi as [|it f items fs H _ IH]; constructor; auto. destruct it as [m|].
    - destruct (sends_line _ _ _ _ _ H) as (q & _ & _ & _ & K). exact K.
    - inversion H; subst. exists []. auto. }
  pose proof (limited_supplies (W:=W) act maxline c fs rest Hq Hs HL Hr Hw Hwr) as HS.
  assert (HF : kept (fun _ => false) items = messages items).
  { unfold kept. induction (messages items) as [|m l IH]; [reflexivity|]. cbn [filter negb]. f_equal. exact IH. }
  rewrite <- HF.
  apply (stream_filtered act enc dec cfg (fun _ => false) g Hraw) with (fs := fs); auto.
  - intros v m. rewrite Hmsg. reflexivity.
  - rewrite Hka. reflexivity.
  - clear. induction (messages items) as [|m l IH]; [exact I|]. cbn [drops_alike]. split; [exact I|exact IH].
Qed.
Print Assumptions C54_messages_in_order.

(** Four messages and two keep-alives, read in pieces, the last line incomplete. *)
Definition C54_items : list (option msg) :=
  [Some (MNoArgs KGetNickList); None; Some (MName KHello (B "bob")); Some (MChat (mk_chat (B "bob") (B "a|b"))); None; Some (MRaw (B "Foo") (B "1 2"))].
Definition C54_frames : list bytes := [B "$GetNickList|"; B "|"; B "$Hello bob|"; B "<bob> a&#124;b|"; B "|"; B "$Foo 1 2|"].
Definition C54_script : script :=
  [RD (B "$GetNickL") None; RD (B "ist||$Hello b") None; RD [] None; RD (B "ob|<bob> a&#124;b||$Foo 1 2|$Qui") None].
Example C54_instance :
  Forall quiet C54_script /\ script_data C54_script = concat C54_frames ++ B "$Qui" /\
  Forall2 (sends None None 32) C54_items C54_frames /\
  results (read_msgs nozlib 50 6 0 (nreader_on 100 None (plain (Some (fun n => (S n, None))) []) C54_script)) =
    Some (map (fun m => Ok (Some m)) (messages C54_items) ++ [Err EEOF; Err EEOF], 2).
Proof.
  split; [repeat (constructor; [first [now right|left; discriminate]|]); constructor|]. split; [reflexivity|]. split.
  - assert (HS : forall m, sized m -> Forall (fun f => ~ In "|"%byte f /\ ~ In x00 f) (raw_fields m) -> (Z.of_nat (length (msg_type m)) <= 32)%Z ->
      match m with MRaw t _ => command_name 32 t /\ is_registered t = false | _ => True end -> sendable 32 m) by (unfold sendable; auto).
    assert (HF : forall m p f g, wire None None m p -> sendable 32 m -> framed (msg_type m) p f -> f = g -> sends None None 32 (Some m) g)
      by (intros m p f g H1 H2 H3 <-; econstructor; eassumption).
    unfold C54_items, C54_frames. repeat apply Forall2_cons; try apply se_keep; try apply Forall2_nil.
    + apply (HF _ [] (B "$" ++ B "GetNickList" ++ B "|")); [apply w_noargs|apply HS; cbn; [exact I|constructor|vm_compute; discriminate|exact I]|apply fr_bare; discriminate|reflexivity].
    + apply (HF _ (B "bob") (B "$" ++ B "Hello" ++ B " " ++ B "bob" ++ B "|")); [by_wire (w_name None None KHello (B "bob") (B "bob") _)|apply HS; cbn; [exact I|constructor|vm_compute; discriminate|exact I]| |reflexivity].
      apply fr_args; discriminate.
    + apply (HF _ (B "<bob> a&#124;b") (B "<bob> a&#124;b" ++ B "|")).
      * by_wire (w_chat None None _ _ (cw_named None None (B "bob") (B "bob") (B "a|b") (B "a|b") _ _ _)).
      * apply HS; cbn; [exact I|constructor|vm_compute; discriminate|exact I].
      * apply fr_chat. discriminate.
      * reflexivity.
    + apply (HF _ (B "1 2") (B "$" ++ B "Foo" ++ B " " ++ B "1 2" ++ B "|")); [apply w_raw|apply HS; cbn| |reflexivity].
      * exact I.
      * repeat constructor; intros K; cbv in K; intuition discriminate.
      * vm_compute; discriminate.
      * split; [|reflexivity]. split; [discriminate|]. split; [vm_compute; discriminate|]. apply ascii_name_spec. reflexivity.
      * apply fr_args; discriminate.
  - vm_compute. reflexivity.
Qed.

(** Unmarshal of one encoded message (with keep-alives before it and any lines behind it),
    and of data without a message. *)
Theorem C54_unmarshal {Z} (act : Z -> zaction Z) enc dec c items fs rest :
  Forall quiet c -> script_data c = concat fs ++ rest -> Forall2 (sends enc dec 32) items fs -> ~ In "|"%byte rest ->
  Forall (fun l => within 32768 (length l)) fs -> within 32768 (S (length rest)) ->
  eventually (fun f => unmarshal act f dec c =
    Some (match messages items with m :: _ => Ok (Some m) | [] => Err EUnexpectedEOF end)).
Proof.
  intros Hq Hs Hi Hr Hw Hwr.
  assert (HL : Forall (is_line "|"%byte) fs).
  { clear - Hi. induction Hi as [|it f items fs H _ IH]; constructor; auto. destruct it as [m|].
    - destruct (sends_line _ _ _ _ _ H) as (q & _ & _ & _ & K). exact K.
    - inversion H; subst. exists []. auto. }
  pose proof (limited_supplies (W:=unit) act 32768 c fs rest Hq Hs HL Hr Hw Hwr) as HS.
  assert (HD : drops_alike (fun _ => false) None (messages items)).
  { clear. induction (messages items) as [|m l IH]; [exact I|]. cbn [drops_alike]. split; [exact I|exact IH]. }
  destruct (stream_filtered act enc dec (plain None []) (fun _ => false) (fun w : unit => w) eq_refl (fun _ _ => eq_refl) (fun _ => eq_refl) 1 items fs tt _ Hi HD HS)
    as (w2 & R2 & K & _).
  eapply eventually_mono; [|exact K]. intros f E. unfold unmarshal.
  change (set_decoder dec (new_nreader c)) with (nreader_on (W:=unit) (Z:=Z) 32768 dec (plain None []) c).
  unfold nreader_on. cbn [read_msgs] in E. destruct (read_msg act f tt _) as [[[o w1] R1]|]; [|discriminate].
  assert (HF : kept (fun _ => false) items = messages items).
  { unfold kept. clear. induction (messages items) as [|m l IH]; [reflexivity|]. cbn [filter negb]. f_equal. exact IH. }
  rewrite HF in E. injection E as E _ _. unfold msgs_then_eof in E. destruct (messages items) as [|m l]; cbn in E; injection E as ->; reflexivity.
Qed.
Print Assumptions C54_unmarshal.

Example C54_unmarshal_instance :
  unmarshal nozlib 50 None [RD (B "||$Hello b") None; RD (B "ob|$Bad") None] = Some (Ok (Some (MName KHello (B "bob")))) /\
  unmarshal nozlib 50 None [RD (B "||$Hello b") None] = Some (Err EUnexpectedEOF).
Proof. split; vm_compute; reflexivity. Qed.

(** ** C55: the message type read is the one named by the command. *)

Theorem C55_read_msg {W Z} (act : Z -> zaction Z) f (w : W) R o w' R' : observing (nr_cfg R) -> read_msg act f w R = Some (Ok o, w', R') ->
  exists ls l m a, takes act f (nr_line R) (ls ++ [l]) (nr_line R') /\ o = Some m /\ line_for (nc_max_cmd (nr_cfg R)) l (command m) a /\
    (command m = [] -> exists ch, m = MChat ch) /\ (is_registered (command m) = false -> m = MRaw (command m) a).
Proof. exact (msg_result act f w R o w' R'). Qed.
Print Assumptions C55_read_msg.

Theorem C55_read_msg_to {W Z} (act : Z -> zaction Z) f m (w : W) R x m' w' R' : observing (nr_cfg R) -> read_msg_to act f m w R = Some (x, m', w', R') ->
  command m' = command m /\
  (x = Ok tt -> exists ls l a, takes act f (nr_line R) (ls ++ [l]) (nr_line R') /\ line_for (nc_max_cmd (nr_cfg R)) l (command m) a).
Proof. exact (to_result act f m w R x m' w' R'). Qed.
Print Assumptions C55_read_msg_to.

Theorem C55_read_msg_any {W Z} (act : Z -> zaction Z) f ms (w : W) R o ms' w' R' : observing (nr_cfg R) -> read_msg_any act f ms w R = Some (Ok o, ms', w', R') ->
  map command ms' = map command ms /\
  exists i m ls l a, o = Some i /\ nth_error ms' i = Some m /\ takes act f (nr_line R) (ls ++ [l]) (nr_line R') /\
    line_for (nc_max_cmd (nr_cfg R)) l (command m) a.
Proof. exact (any_result act f ms w R o ms' w' R'). Qed.
Print Assumptions C55_read_msg_any.

Theorem C55_unexpected_to {W Z} (act : Z -> zaction Z) f m (w : W) R l t a w1 r1 :
  read_line act f w (nr_line R) = Some (LLine l, w1, r1) -> nc_raw (nr_cfg R) = [] ->
  line_for (nc_max_cmd (nr_cfg R)) l t a -> command m <> t ->
  read_msg_to act f m w R = Some (Err (EUnexpectedCmd (command m) t a), m, w1, mkNreader r1 (nr_dec R) (nr_cfg R)).
Proof. exact (mismatch_to act f m w R l t a w1 r1). Qed.
Print Assumptions C55_unexpected_to.

Theorem C55_unexpected_any {W Z} (act : Z -> zaction Z) f m0 ms (w : W) R l t a w1 r1 :
  read_line act f w (nr_line R) = Some (LLine l, w1, r1) -> nc_raw (nr_cfg R) = [] ->
  line_for (nc_max_cmd (nr_cfg R)) l t a -> Forall (fun m => is_raw m = false /\ command m <> t) (m0 :: ms) ->
  read_msg_any act f (m0 :: ms) w R = Some (Err (EUnexpectedCmd (command m0) t a), m0 :: ms, w1, mkNreader r1 (nr_dec R) (nr_cfg R)).
Proof. exact (mismatch_any act f m0 ms w R l t a w1 r1). Qed.
Print Assumptions C55_unexpected_any.

(** For ReadMsg (o = SNil), ReadMsgTo (o = SOwn m) and ReadMsgToAny (al = its arguments). *)
Theorem C55_malformed {W Z} (act : Z -> zaction Z) f (w : W) R body w1 r1 e :
  read_line act f w (nr_line R) = Some (LLine (body ++ B "|"), w1, r1) -> nc_raw (nr_cfg R) = [] ->
  (In x00 body /\ e = EProtocol "message should not contain null characters" \/
   ~ In x00 body /\ (exists t a, parsed body (Some t) a /\
     (t = [] /\ e = EProtocol "command name is empty" \/
      t <> [] /\ (nc_max_cmd (nr_cfg R) < Z.of_nat (length t))%Z /\ e = EProtocol "command name is too long" \/
      t <> [] /\ (Z.of_nat (length t) <= nc_max_cmd (nr_cfg R))%Z /\ ~ Forall (fun b => In b name_chars) t /\
        e = EProtocol "command name should be in acsii"))) ->
  forall o al, exists s, read_call act f o al w R = Some (LReturn (Some e), s, mkNreader r1 (nr_dec R) (nr_cfg R)) /\
    rs_w s = w1 /\ rs_slot s = o /\ rs_allowed s = al.
Proof. exact (malformed act f w R body w1 r1 e). Qed.
Print Assumptions C55_malformed.

(** One line each: a chat line, an unknown command with odd arguments, a known command, then
    lines that are refused. *)
Definition on_text {W} (cfg : ncfg W) (s : bytes) : nreader W unit := nreader_on 0 None cfg [RD s None].
Example C55_instance :
  results (read_msgs nozlib 50 8 tt (on_text (plain None []) (B "a $Hello|$Foo  $x|$Hello bob|$ x|$A*|$abcdefghijklmnopqrstuvwxyz0123456|" ++ [x00] ++ B "|$Quit a|"))) =
    Some ([Ok (Some (MChat (mk_chat [] (B "a $Hello")))); Ok (Some (MRaw (B "Foo") (B " $x"))); Ok (Some (MName KHello (B "bob")));
           Err err_cmd_empty; Err err_cmd_ascii; Err err_cmd_long; Err err_null; Ok (Some (MName KQuit (B "a")))], tt) /\
  match read_msg_to nozlib 50 (MName KQuit (B "old")) tt (on_text (plain None []) (B "$Hello bob|")) with
  | Some (x, m, _, _) => x = Err (EUnexpectedCmd (B "Quit") (B "Hello") (B "bob")) /\ m = MName KQuit (B "old") | None => False end /\
  match read_msg_any nozlib 50 [MName KQuit []; MChat chat0] tt (on_text (plain None []) (B "$Hello bob|")) with
  | Some (x, _, _, _) => x = Err (EUnexpectedCmd (B "Quit") (B "Hello") (B "bob")) | None => False end /\
  match read_msg_any nozlib 50 [MName KQuit []; MChat chat0] tt (on_text (plain None []) (B "|<bob> hi|")) with
  | Some (x, ms, _, _) => x = Ok (Some 1) /\ ms = [MName KQuit []; MChat (mk_chat (B "bob") (B "hi"))] | None => False end.
Proof. vm_compute. repeat split. Qed.

(** ** C56: a dropped message has no influence on later messages. *)

(** Finding: the message dropped by an OnMessage hook, or ignored by OnUnmarshalError, stays
    in *ptr, and the next line is read as with ReadMsgTo of that message. *)
Definition C56_statement (cfg : ncfg unit) (l : bytes) : Prop :=
  forall s n os R', eventually (fun f => read_msgs nozlib f n tt (on_text cfg s) = Some (os, tt, R')) ->
  exists R2, eventually (fun f => read_msgs nozlib f n tt (on_text cfg (l ++ s)) = Some (os, tt, R2)).

Lemma on_text_result {W} (cfg : ncfg W) (w : W) ls x s ls' : ls <> [] -> Forall (is_line "|"%byte) ls ->
  through cfg ls (mkRs w None None SNil []) = (x, s, ls') ->
  exists R', eventually (fun f => read_msgs nozlib f 1 w (on_text cfg (concat ls)) = Some ([result x s], rs_w s, R')).
Proof.
  intros N H T. assert (HS : supplies (W:=W) nozlib (nr_line (on_text cfg (concat ls))) ls).
  { apply (limited_supplies nozlib 0 [RD (concat ls) None] ls []).
    - constructor; [now right|constructor].
    - reflexivity.
    - exact H.
    - intros [].
    - apply Forall_forall. intros; left; lia.
    - left; lia. }
  destruct (supplies_msg nozlib ls w (on_text cfg (concat ls)) x s ls' HS T) as (r' & _ & K).
  eexists. apply (read_msgs_cons nozlib 0 w _ _ _ _ [] _ _ K). exists 0. reflexivity.
Qed.
Lemma eventually_both {P Q : nat -> Prop} : eventually P -> eventually Q -> exists f, P f /\ Q f.
Proof. intros [a Ha] [b Hb]. exists (Nat.max a b). split; [apply Ha|apply Hb]; lia. Qed.
Ltac is_a_line b := exists b; split; [reflexivity|apply contains_byte_false; reflexivity].

Theorem C56_dropped_refuted : ~ forall cfg m l, nc_msg cfg = [dropping (fun m => bytes_eqb (msg_type m) (B "Hello"))] -> nc_raw cfg = [] ->
  sends None None (nc_max_cmd cfg) (Some m) l -> bytes_eqb (msg_type m) (B "Hello") = true -> C56_statement cfg l.
Proof.
  intros H. set (cfg := plain None [dropping (fun m => bytes_eqb (msg_type m) (B "Hello"))] : ncfg unit).
  assert (HS : sends None None 32 (Some (MName KHello (B "a"))) (B "$Hello a|")).
  { refine (eq_ind_r (sends None None 32 (Some (MName KHello (B "a")))) (se_msg None None 32 _ (B "a") (B "$" ++ B "Hello" ++ B " " ++ B "a" ++ B "|") _ _ _) _); [| | |reflexivity].
    - by_wire (w_name None None KHello (B "a") (B "a") _).
    - split; [exact I|]. split; [constructor|]. split; [vm_compute; discriminate|exact I].
    - apply fr_args; discriminate. }
  specialize (H cfg _ _ eq_refl eq_refl HS eq_refl (B "hi|") 1).
  destruct (on_text_result cfg tt [B "hi|"] (LReturn None) (mkRs tt None None (SOwn (MChat (mk_chat [] (B "hi")))) []) [] ltac:(discriminate)) as (R1 & K1).
  { constructor; [is_a_line (B "hi")|constructor]. } { vm_compute. reflexivity. }
  destruct (on_text_result cfg tt [B "$Hello a|"; B "hi|"] (LReturn (Some (EUnexpectedCmd (B "Hello") [] (B "hi")))) (mkRs tt None None (SOwn (MName KHello (B "a"))) []) []
    ltac:(discriminate)) as (R2 & K2).
  { constructor; [is_a_line (B "$Hello a")|constructor; [is_a_line (B "hi")|constructor]]. } { vm_compute. reflexivity. }
  destruct (H _ _ K1) as (R3 & K3). destruct (eventually_both K2 K3) as (f & E2 & E3).
  change (concat [B "$Hello a|"; B "hi|"]) with (B "$Hello a|" ++ B "hi|") in E2. rewrite E3 in E2. discriminate E2.
Qed.
Print Assumptions C56_dropped_refuted.

Theorem C56_ignored_refuted : ~ forall cfg l t a e, nc_unmarshal_err cfg = Some (fun w _ _ => (w, (false, None))) -> nc_raw cfg = [] -> nc_msg cfg = [] ->
  line_for (nc_max_cmd cfg) l t a -> snd (msg_unmarshal None (new_message t) a) = Err e -> C56_statement cfg l.
Proof.
  intros H. set (cfg := mkNcfg 32 None [] None (Some (fun w _ _ => (w, (false, None)))) [] : ncfg unit).
  assert (HL : line_for 32 (B "$Direction x|") (B "Direction") (B "x")).
  { exists (B "$Direction x"), (Some (B "Direction")). split; [reflexivity|]. split; [apply contains_byte_false; reflexivity|]. split.
    - apply (pa_args (B "Direction") (B "x")). apply contains_byte_false. reflexivity.
    - split; [reflexivity|]. split; [discriminate|]. split; [vm_compute; discriminate|]. apply ascii_name_spec. reflexivity. }
  assert (HE : exists e, snd (msg_unmarshal None (new_message (B "Direction")) (B "x")) = Err e) by (eexists; vm_compute; reflexivity). destruct HE as [e HE].
  specialize (H cfg _ _ _ e eq_refl eq_refl eq_refl HL HE (B "hi|") 1).
  destruct (on_text_result cfg tt [B "hi|"] (LReturn None) (mkRs tt None None (SOwn (MChat (mk_chat [] (B "hi")))) []) [] ltac:(discriminate)) as (R1 & K1).
  { constructor; [is_a_line (B "hi")|constructor]. } { vm_compute. reflexivity. }
  assert (HT : exists s, through cfg [B "$Direction x|"; B "hi|"] (mkRs tt None None SNil []) = (LReturn (Some (EUnexpectedCmd (B "Direction") [] (B "hi"))), s, []))
    by (eexists; vm_compute; reflexivity). destruct HT as [s HT].
  assert (HI : Forall (is_line "|"%byte) [B "$Direction x|"; B "hi|"])
    by (constructor; [is_a_line (B "$Direction x")|constructor; [is_a_line (B "hi")|constructor]]).
  destruct (on_text_result cfg tt [B "$Direction x|"; B "hi|"] (LReturn (Some (EUnexpectedCmd (B "Direction") [] (B "hi")))) s []
    ltac:(discriminate) HI HT) as (R2 & K2).
  destruct (H _ _ K1) as (R3 & K3). destruct (eventually_both K2 K3) as (f & E2 & E3).
  change (concat [B "$Direction x|"; B "hi|"]) with (B "$Direction x|" ++ B "hi|") in E2. rewrite E3 in E2. discriminate E2.
Qed.
Print Assumptions C56_ignored_refuted.

(** What happens exactly: the call goes on like ReadMsgTo of the dropped message, as
    the hooks left it, on the rest of the stream. *)
Theorem C56_continues_as_read_msg_to {W Z} (act : Z -> zaction Z) maxline dec cfg c c2 body t a ls rest (w : W) m x0 w1 m1 :
  Forall quiet c -> script_data c = (body ++ B "|") ++ concat ls ++ rest -> Forall quiet c2 -> script_data c2 = concat ls ++ rest ->
  Forall (is_line "|"%byte) ((body ++ B "|") :: ls) -> ~ In "|"%byte rest ->
  Forall (fun l => within maxline (length l)) ((body ++ B "|") :: ls) -> within maxline (S (length rest)) ->
  nc_raw cfg = [] -> line_for (nc_max_cmd cfg) (body ++ B "|") t a -> msg_unmarshal dec (new_message t) a = (m, x0) ->
  (x0 = Ok tt /\ run_msgs (nc_msg cfg) (w, m) = ((w1, m1), HDrop) \/
   exists e f o, x0 = Err e /\ m1 = m /\ (forall text, e <> EUnknownEnc text) /\ nc_unmarshal_err cfg = Some f /\ f w body e = (w1, (false, o))) ->
  exists x m' w' dec' r3 r4,
    eventually (fun f => read_msg act f w (nreader_on maxline dec cfg c) =
      Some (match x with Ok _ => Ok (Some m') | Err e => Err e | Panic => Panic end, w', mkNreader r3 dec' cfg)) /\
    eventually (fun f => read_msg_to act f m1 w1 (nreader_on maxline dec cfg c2) = Some (x, m', w', mkNreader r4 dec' cfg)).
Proof.
  intros Hq Hs Hq2 Hs2 Hl Hr Hw Hwr Hraw L U D. inversion Hl; subst. inversion Hw; subst.
  apply (drop_continues act ls (body ++ B "|") w (nreader_on maxline dec cfg c) m1 w1).
  - apply (limited_supplies act maxline c ((body ++ B "|") :: ls) rest); auto. cbn [concat]. rewrite <- !app_assoc in *. exact Hs.
  - cbn [nreader_on nr_cfg nr_dec]. rewrite (process_fresh cfg body t a w dec m x0 Hraw L U).
    + destruct D as [[-> D]|(e & f & o & -> & -> & _ & D1 & D2)]; cbv zeta iota; [now rewrite D|now rewrite D1, D2].
    + intros text. destruct D as [[-> _]|(e & f & o & -> & _ & D & _)]; [discriminate|]. intros E. injection E as E. exact (D text E).
  - exact (limited_supplies act maxline c2 ls rest Hq2 Hs2 H2 Hr H4 Hwr).
Qed.
Print Assumptions C56_continues_as_read_msg_to.

(** Lines dropped by a hook on raw messages have no influence. *)
Theorem C56_raw_hook_drops_cleanly {W Z} (act : Z -> zaction Z) maxline dec cfg c c2 body cmd a ls rest (w w1 : W) :
  Forall quiet c -> script_data c = (body ++ B "|") ++ concat ls ++ rest -> Forall quiet c2 -> script_data c2 = concat ls ++ rest ->
  Forall (is_line "|"%byte) ((body ++ B "|") :: ls) -> ~ In "|"%byte rest ->
  Forall (fun l => within maxline (length l)) ((body ++ B "|") :: ls) -> within maxline (S (length rest)) ->
  ~ In x00 body -> parsed body cmd a -> run_raw (nc_raw cfg) w cmd a = (w1, HDrop) ->
  exists x w' dec' r3 r4,
    eventually (fun f => read_msg act f w (nreader_on maxline dec cfg c) = Some (x, w', mkNreader r3 dec' cfg)) /\
    eventually (fun f => read_msg act f w1 (nreader_on maxline dec cfg c2) = Some (x, w', mkNreader r4 dec' cfg)).
Proof.
  intros Hq Hs Hq2 Hs2 Hl Hr Hw Hwr N P D. inversion Hl; subst. inversion Hw; subst.
  apply (raw_drop act ls (body ++ B "|") w (nreader_on maxline dec cfg c) w1); auto.
  - apply (limited_supplies act maxline c ((body ++ B "|") :: ls) rest); auto. cbn [concat]. rewrite <- !app_assoc in *. exact Hs.
  - cbn [nreader_on nr_cfg nr_dec]. rewrite (process_parsed cfg body cmd a _ N P). cbn [rs_w]. rewrite D. reflexivity.
  - exact (limited_supplies act maxline c2 ls rest Hq2 Hs2 H2 Hr H4 Hwr).
Qed.
Print Assumptions C56_raw_hook_drops_cleanly.

(** Full statement: as [C54_messages_in_order], with a hook that drops messages, the results
    are the messages which are not dropped.  Missing: streams where a dropped message is
    followed by one of another type, or leaves values in fields which the next line omits. *)
Theorem C56_alike_partial {W Z} (act : Z -> zaction Z) enc dec maxline cfg (p : msg -> bool) c items fs rest (w : W) n :
  Forall quiet c -> script_data c = concat fs ++ rest -> Forall2 (sends enc dec (nc_max_cmd cfg)) items fs -> ~ In "|"%byte rest ->
  Forall (fun l => within maxline (length l)) fs -> within maxline (S (length rest)) ->
  nc_raw cfg = [] -> nc_msg cfg = [dropping p] -> nc_keep_alive cfg = None -> drops_alike p None (messages items) ->
  exists w2 R2,
    eventually (fun f => read_msgs act f n w (nreader_on maxline dec cfg c) =
      Some (msgs_then_eof n (filter (fun m => negb (p m)) (messages items)), w2, R2)) /\ nr_dec R2 = dec.
Proof.
  intros Hq Hs Hi Hr Hw Hwr Hraw Hmsg Hka Hd.
  assert (HL : Forall (is_line "|"%byte) fs).
  { clear - Hi. induction Hi as [|it f items fs H _ IH]; constructor; auto. destruct it as [m|].
    - destruct (sends_line _ _ _ _ _ H) as (q & _ & _ & _ & K). exact K.
    - inversion H; subst. exists []. auto. }
  pose proof (limited_supplies (W:=W) act maxline c fs rest Hq Hs HL Hr Hw Hwr) as HS.
  assert (HM : forall v m, run_msgs (nc_msg cfg) (v, m) = ((v, m), if p m then HDrop else HPass)).
  { intros v m. rewrite Hmsg. cbn. unfold dropping. destruct (p m); reflexivity. }
  assert (HK : match nc_keep_alive cfg with None => forall w : W, (fun w => w) w = w | Some f => forall w, f w = ((fun w => w) w, None) end) by now rewrite Hka.
  destruct (stream_filtered act enc dec cfg p (fun w => w) Hraw HM HK n items fs w _ Hi Hd HS) as (w2 & R2 & K1 & K2 & _).
  exists w2, R2. auto.
Qed.
Print Assumptions C56_alike_partial.

(** The hook drops every Hello; the third call of ReadMsg would fail if the Hello at the end
    were followed by something else. *)
Definition no_hello (m : msg) : bool := match m with MName KHello (b :: _) => beq b "x"%byte | _ => false end.
Example C56_instance :
  drops_alike no_hello None [MChat (mk_chat [] (B "a")); MName KHello (B "x1"); MName KHello (B "x2"); MName KHello (B "bob"); MName KQuit (B "bob"); MName KHello (B "x3")] /\
  results (read_msgs nozlib 50 4 tt (on_text (plain None [dropping no_hello]) (B "a|$Hello x1|$Hello x2|$Hello bob|$Quit bob|$Hello x3|"))) =
    Some ([Ok (Some (MChat (mk_chat [] (B "a")))); Ok (Some (MName KHello (B "bob"))); Ok (Some (MName KQuit (B "bob"))); Err EEOF], tt) /\
  (* the same with another message after the dropped one *)
  results (read_msgs nozlib 50 3 tt (on_text (plain None [dropping no_hello]) (B "$Hello x1|$Quit bob|$Hello bob|"))) =
    Some ([Err (EUnexpectedCmd (B "Hello") (B "Quit") (B "bob")); Ok (Some (MName KHello (B "bob"))); Err EEOF], tt) /\
  (* the state after the dropped line, see [C56_continues_as_read_msg_to] *)
  process_line (plain None [dropping no_hello]) (B "$Hello x1|") (mkRs tt None None SNil []) = (LSkip, mkRs tt None None (SOwn (MName KHello (B "x1"))) []) /\
  (* a raw hook *)
  results (read_msgs nozlib 50 2 tt (on_text (mkNcfg 32 None [fun w cmd a => (w, if bytes_eqb a (B "x1") then HDrop else HPass)] None None []) (B "$Hello x1|$Quit bob|"))) =
    Some ([Ok (Some (MName KQuit (B "bob"))); Err EEOF], tt).
Proof. split; [cbn; tauto|]. split; [vm_compute; reflexivity|]. split; [vm_compute; reflexivity|]. split; vm_compute; reflexivity. Qed.

(** ** C57: ReadMsgToAny with a RawMessage. *)

(** Finding: a *RawMessage matches in the loop over the expected messages, but the type check
    after the loop refuses every command except the one named by its Typ, and every chat line. *)
Theorem C57_wildcard_refuted : ~ forall f (R : nreader unit unit) l t a w1 r1 d,
  read_line nozlib f tt (nr_line R) = Some (LLine l, w1, r1) -> nc_raw (nr_cfg R) = [] -> nc_msg (nr_cfg R) = [] ->
  line_for (nc_max_cmd (nr_cfg R)) l t a ->
  exists ms' w' R', read_msg_any nozlib f [MRaw [] d] tt R = Some (Ok (Some 0), ms', w', R').
Proof.
  intros H.
  assert (HL : line_for 32 (B "$Hello bob|") (B "Hello") (B "bob")).
  { exists (B "$Hello bob"), (Some (B "Hello")). split; [reflexivity|]. split; [apply contains_byte_false; reflexivity|]. split.
    - apply (pa_args (B "Hello") (B "bob")). apply contains_byte_false. reflexivity.
    - split; [reflexivity|]. split; [discriminate|]. split; [vm_compute; discriminate|]. apply ascii_name_spec. reflexivity. }
  assert (HR : exists r1, read_line nozlib 9 tt (nr_line (on_text (plain None []) (B "$Hello bob|"))) = Some (LLine (B "$Hello bob|"), tt, r1)) by (eexists; vm_compute; reflexivity).
  destruct HR as [r1 HR].
  destruct (H 9 (on_text (plain None []) (B "$Hello bob|")) _ _ _ _ _ [] HR eq_refl eq_refl HL) as (ms' & w' & R' & E). vm_compute in E. discriminate E.
Qed.
Print Assumptions C57_wildcard_refuted.

(** Exactly the command named by Typ is accepted (full statement: every command). *)
Theorem C57_accepts_only_its_type_partial {W Z} (act : Z -> zaction Z) f t0 d0 ms (w : W) R l t a w1 r1 :
  read_line act f w (nr_line R) = Some (LLine l, w1, r1) -> nc_raw (nr_cfg R) = [] -> nc_msg (nr_cfg R) = [] ->
  line_for (nc_max_cmd (nr_cfg R)) l t a ->
  (t0 = t -> t <> [] ->
    read_msg_any act f (MRaw t0 d0 :: ms) w R = Some (Ok (Some 0), MRaw t0 a :: ms, w1, mkNreader r1 (nr_dec R) (nr_cfg R))) /\
  (t0 <> t \/ t = [] ->
    read_msg_any act f (MRaw t0 d0 :: ms) w R = Some (Err (EUnexpectedCmd t0 t a), MRaw t0 d0 :: ms, w1, mkNreader r1 (nr_dec R) (nr_cfg R))).
Proof.
  intros H Hr Hm L. rewrite (any_raw act f t0 d0 ms w R l t a w1 r1 H Hr Hm L). split.
  - intros -> N. rewrite (proj2 (bytes_eqb_true t t) eq_refl), (proj2 (bytes_eqb_false t []) N). reflexivity.
  - intros [N| ->]; [now rewrite (proj2 (bytes_eqb_false t0 t) N)|]. change (bytes_eqb [] []) with true. cbn [negb]. now rewrite andb_false_r.
Qed.
Print Assumptions C57_accepts_only_its_type_partial.

Example C57_instance :
  match read_msg_any nozlib 50 [MRaw (B "Foo") (B "old"); MName KHello []] tt (on_text (plain None []) (B "$Foo new one|")) with
  | Some (x, ms, _, _) => x = Ok (Some 0) /\ ms = [MRaw (B "Foo") (B "new one"); MName KHello []] | None => False end /\
  match read_msg_any nozlib 50 [MRaw (B "Foo") (B "old"); MName KHello []] tt (on_text (plain None []) (B "$Hello bob|")) with
  | Some (x, ms, _, _) => x = Err (EUnexpectedCmd (B "Foo") (B "Hello") (B "bob")) | None => False end /\
  match read_msg_any nozlib 50 [MName KHello []; MRaw (B "Foo") (B "old")] tt (on_text (plain None []) (B "$Hello bob|")) with
  | Some (x, ms, _, _) => x = Ok (Some 0) | None => False end.
Proof. vm_compute. repeat split. Qed.
