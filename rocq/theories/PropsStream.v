(** Property theorems C51 (exact form), C103 and C104: any NMDC stream, and the callback for texts
    in an unknown encoding (nmdc/reader.go:148-329).
    Specification: SpecStream.v.  Proofs: NmdcStreamFacts.v, NmdcCrashFacts.v, NmdcRetryFacts.v. *)
From Verif Require Import Base BaseFacts Utf8 SpecText SpecHash SpecNmdc SpecRead NmdcText NmdcChat NmdcHub NmdcFiles NmdcUser NmdcMessage SpecFrame NmdcDecodeFacts NmdcReuseFacts NmdcReadMsg.
From Verif Require Import LineReader SpecLine LineReaderStream NmdcReader SpecReader NmdcReaderFacts SpecStream NmdcCrashFacts NmdcStreamFacts.
From Coq Require Import Lia.

(** ** C51: the decoder crashes on exactly the searches for an overlong hash. *)
Theorem C51_crash_exact : forall dec m d, sized m -> (snd (msg_unmarshal dec m d) = Panic <-> (exists s, m = MSearch s) /\ search_crash dec d).
Proof. exact msg_panics. Qed.
Print Assumptions C51_crash_exact.
(** With a size and a user name; but not with a type that is not TTH. *)
Example C51_exact_case :
  search_crash None (B "Hub:bob T?F?100?9?TTH:" ++ repeat "A"%byte 41) /\ ~ search_crash None (B "Hub:bob T?F?100?1?TTH:" ++ repeat "A"%byte 41) /\
  ~ search_crash None (B "Hub:bob T?F?100?9?TTH:" ++ repeat "A"%byte 39).
Proof.
  assert (K : forall d, search_crash None d <-> snd (msg_unmarshal None (MSearch search0) d) = Panic).
  { intros d. rewrite (C51_crash_exact None (MSearch search0) d I). split; [intros H; split; [eauto|exact H]|tauto]. }
  rewrite !K. vm_compute. repeat split; discriminate.
Qed.

(** ** C103: any stream of lines is read line by line as the grammar says. *)
Theorem C103_stream {W Z} (act : Z -> zaction Z) maxline dec cfg (k : W -> W) c fs rest w :
  Forall quiet c -> script_data c = concat fs ++ rest -> Forall (is_line "|"%byte) fs -> ~ In "|"%byte rest ->
  Forall (fun l => within maxline (length l)) fs -> within maxline (S (length rest)) ->
  nc_raw cfg = [] -> nc_msg cfg = [] -> nc_unmarshal_err cfg = None -> nc_unknown cfg = None ->
  match nc_keep_alive cfg with None => forall w, k w = w | Some f => forall w, f w = (k w, None) end ->
  exists os, Forall2 (line_means dec (nc_max_cmd cfg)) (filter (fun l => negb (bytes_eqb l (B "|"))) fs) os /\
    forall n, exists w2 R2,
      eventually (fun f => read_msgs act f n w (nreader_on maxline dec cfg c) = Some (firstn n (os ++ repeat (Err EEOF) n), w2, R2)) /\
      (length os < n -> w2 = Nat.iter (length (filter (fun l => bytes_eqb l (B "|")) fs)) k w /\ nr_dec R2 = dec).
Proof.
  intros Hq Hs HL Hr Hw Hwr Hraw Hmsg Herr Hun Hka.
  pose proof (limited_supplies (W:=W) act maxline c fs rest Hq Hs HL Hr Hw Hwr) as HS.
  destruct (session_reads act cfg k Hraw Hmsg Herr Hka fs w dec _ HL HS) as (os & w2 & dec2 & S1 & RD). rewrite Hun in S1.
  pose proof (session_plain _ _ _ _ _ _ _ _ S1) as (-> & F & ->). exists os. split; [exact F|exact RD].
Qed.
Print Assumptions C103_stream.
(** The meaning of a line is unique, up to the order of the extra fields of a user. *)
Theorem C103_unique dec limit l x y : line_means dec limit l x -> line_means dec limit l y ->
  match x, y with Ok (Some m), Ok (Some m') => msg_alike m m' | Err _, Err _ | Panic, Panic => True | _, _ => False end.
Proof. exact (means_unique dec limit l x y). Qed.
Print Assumptions C103_unique.

(** For the examples: no compression. *)
Definition C103_nozlib (z : unit) : zaction unit := ZLast [].
(** Results without the reader. *)
Definition C103_results {A B C} (x : option (A * B * C)) : option (A * B) := match x with Some (a, b, _) => Some (a, b) | None => None end.
(** The lines of the example. *)
Definition C103_lines : list bytes :=
  [B "$Hello bob|"; B "|"; B "$GetPass now|"; B "<bob> hi|"; B "$Search 1.2.3.4:5 F?T?0?9?TTH:AAAAAAAAAAAAAAAAAAAAAAAAAAAAAAAAAAAAAAAA|"; B "$ x|"; B "|"; B "$Quit a|"].
(** They arrive in pieces. *)
Definition C103_script : script := [RD (B "$Hello b") None; RD [] None; RD (skipn 8 (concat C103_lines) ++ B "rest") None].
(** Messages, an error of the command, one of its name, a crash and keep-alives. *)
Example C103_case : Forall quiet C103_script /\ script_data C103_script = concat C103_lines ++ B "rest" /\ Forall (is_line "|"%byte) C103_lines /\
  match C103_results (read_msgs C103_nozlib 60 8 0 (nreader_on 0 None (mkNcfg 32 (Some (fun n => (S n, None))) [] None None []) C103_script)) with
  | Some (os, w) => w = 2 /\ os = [Ok (Some (MName KHello (B "bob"))); nth 1 os Panic; Ok (Some (MChat (mk_chat (B "bob") (B "hi")))); Panic; nth 4 os Panic; Ok (Some (MName KQuit (B "a"))); Err EEOF; Err EEOF] /\
      (exists e, nth 1 os Panic = Err e) /\ (exists e, nth 4 os Panic = Err e)
  | None => False end.
Proof.
  split; [repeat (constructor; [first [now right|left; discriminate]|]); constructor|]. split; [reflexivity|]. split.
  - unfold C103_lines. repeat (apply Forall_cons; [match goal with |- is_line _ ?l => exists (removelast l); split; [vm_compute; reflexivity|apply contains_byte_false; vm_compute; reflexivity] end|]). constructor.
  - vm_compute. repeat split; eexists; reflexivity.
Qed.

(** ** C104: the callback for texts in an unknown encoding. *)
Theorem C104_callback {W Z} (act : Z -> zaction Z) maxline dec cfg (k : W -> W) c fs rest w :
  Forall quiet c -> script_data c = concat fs ++ rest -> Forall (is_line "|"%byte) fs -> ~ In "|"%byte rest ->
  Forall (fun l => within maxline (length l)) fs -> within maxline (S (length rest)) ->
  nc_raw cfg = [] -> nc_msg cfg = [] -> nc_unmarshal_err cfg = None ->
  match nc_keep_alive cfg with None => forall w, k w = w | Some f => forall w, f w = (k w, None) end ->
  exists os w2 dec2, session (nc_unknown cfg) k (nc_max_cmd cfg) w dec fs os w2 dec2 /\
    forall n, exists w3 R3,
      eventually (fun f => read_msgs act f n w (nreader_on maxline dec cfg c) = Some (firstn n (os ++ repeat (Err EEOF) n), w3, R3)) /\
      (length os < n -> w3 = w2 /\ nr_dec R3 = dec2).
Proof.
  intros Hq Hs HL Hr Hw Hwr Hraw Hmsg Herr Hka.
  exact (session_reads act cfg k Hraw Hmsg Herr Hka fs w dec _ HL (limited_supplies (W:=W) act maxline c fs rest Hq Hs HL Hr Hw Hwr)).
Qed.
Print Assumptions C104_callback.

(** A callback which records the texts, and gives a decoder turning every byte into 'x' for a text
    that starts with 'd', none for one that starts with 'n', and an error for others. *)
Definition C104_ask (w : list bytes) (text : bytes) : list bytes * (codec + error) :=
  (w ++ [text], match text with
                | b :: _ => if beq b "d" then inl (Some (fun s => Some (map (fun _ => "x"%byte) s))) else if beq b "n" then inl None else inr EUnexpectedEOF
                | [] => inr EUnexpectedEOF end).
(** The configuration of the example. *)
Definition C104_cfg : ncfg (list bytes) := mkNcfg 32 None [] (Some C104_ask) None [].
(** Nothing unknown; refused; without decoder; with a decoder, which then stays. *)
Example C104_case :
  match read_msgs C103_nozlib 60 6 [] (nreader_on 0 None C104_cfg [RD (B "$Hello bob|$Hello e" ++ [xff] ++ B "|<n> n" ++ [xff] ++ B "|<bob> d" ++ [xff] ++ B "|$Hello " ++ [xfe] ++ B "|") None]) with
  | Some (os, w, R) => os = [Ok (Some (MName KHello (B "bob"))); Err EUnexpectedEOF; Ok (Some (MChat (mk_chat (B "n") (B "n" ++ [xef; xbf; xbd]))));
        Ok (Some (MChat (mk_chat (B "xxx") (B "xx")))); Ok (Some (MName KHello (B "x"))); Err EEOF] /\
      w = [B "e" ++ [xff]; B "n" ++ [xff]; B "d" ++ [xff]] /\ nr_dec R <> None
  | None => False end.
Proof. vm_compute. repeat split. discriminate. Qed.

(** Reading one line with a callback that always answers [d]. *)
Definition C104_answering (d : codec) : ncfg unit := mkNcfg 32 None [] (Some (fun w _ => (w, inl d))) None [].
(** The result of one call. *)
Definition C104_read (d : codec) (l : bytes) : res (option msg) -> Prop := fun x =>
  exists R, eventually (fun f => read_msg C103_nozlib f tt (nreader_on 0 None (C104_answering d) [RD l None]) = Some (x, tt, R)).
Lemma C104_run d l x s : is_line "|"%byte l -> process_line (C104_answering d) l (mkRs tt None None SNil []) = (LReturn x, s) ->
  C104_read d l (result (LReturn x) s).
Proof.
  intros H P. assert (HS : supplies (W:=unit) C103_nozlib (nr_line (nreader_on 0 None (C104_answering d) [RD l None])) [l]).
  { apply (limited_supplies C103_nozlib 0 [RD l None] [l] []).
    - constructor; [now right|constructor].
    - cbn. now rewrite !app_nil_r.
    - constructor; [exact H|constructor].
    - intros [].
    - constructor; [left; lia|constructor].
    - left; lia. }
  destruct (supplies_msg C103_nozlib [l] tt (nreader_on 0 None (C104_answering d) [RD l None]) (LReturn x) s [] HS) as (r & _ & K).
  - cbn [through nreader_on nr_cfg nr_dec]. now rewrite P.
  - destruct (rs_w s). now exists (mkNreader r (rs_set s) (C104_answering d)).
Qed.
Lemma C104_once d l x y : C104_read d l x -> C104_read d l y -> x = y.
Proof. intros (R & f & H) (R' & f' & H'). specialize (H (Nat.max f f') ltac:(lia)). specialize (H' (Nat.max f f') ltac:(lia)). congruence. Qed.
(** A decoder for every text. *)
Definition C104_all_x : bytes -> option bytes := fun s => Some (map (fun _ => "x"%byte) s).

(** Finding: not every text in an unknown encoding reaches the callback.  The identifier of an
    ADCGET is one, but the line is refused without asking for a decoder. *)
Theorem C104_asked_refuted : ~ forall d l m, is_line "|"%byte l -> line_means (Some d) 32 l (Ok (Some m)) -> exists m', C104_read (Some d) l (Ok (Some m')).
Proof.
  intros H. set (a := B "file " ++ [xff] ++ B " 0 1"). set (l := B "$ADCGET " ++ a ++ B "|").
  assert (L : is_line "|"%byte l) by (exists (B "$ADCGET " ++ a); split; [reflexivity|apply contains_byte_false; reflexivity]).
  assert (LF : line_for 32 l (B "ADCGET") a).
  { exists (B "$ADCGET " ++ a), (Some (B "ADCGET")). split; [reflexivity|]. split; [apply contains_byte_false; reflexivity|]. split.
    - apply (pa_args (B "ADCGET") a). apply contains_byte_false. reflexivity.
    - split; [reflexivity|]. split; [discriminate|]. split; [vm_compute; discriminate|]. apply ascii_name_spec. reflexivity. }
  destruct (msg_unmarshal (Some C104_all_x) (new_message (B "ADCGET")) a) as [m [[]|e|]] eqn:D; [|vm_compute in D; discriminate D..].
  pose proof (means_decoded (Some C104_all_x) 32 l _ _ _ _ LF D) as M. cbn in M. destruct (H _ _ _ L M) as [m' K].
  assert (P : exists e s, process_line (C104_answering (Some C104_all_x)) l (mkRs tt None None SNil []) = (LReturn (Some e), s)) by (eexists; eexists; vm_compute; reflexivity).
  destruct P as (e & s & P). pose proof (C104_once _ _ _ _ K (C104_run _ _ _ _ L P)) as E. discriminate E.
Qed.
Print Assumptions C104_asked_refuted.

(** Finding: a callback that answers nil asks to go on without decoding, but the arguments are then
    repaired as a whole, and the flag byte of a user is not text: with the IPv6 flag the line is
    refused. *)
Theorem C104_continue_refuted : ~ forall d l m a, is_line "|"%byte l -> line_for 32 l (B "MyINFO") a -> line_means (Some d) 32 l (Ok (Some m)) ->
  exists m', C104_read None l (Ok (Some m')).
Proof.
  intros H. set (a := B "$ALL " ++ [xe9] ++ B " <c V:1,M:A,H:1/0/0,S:2>$ $100" ++ [x81] ++ B "$$0$"). set (l := B "$MyINFO " ++ a ++ B "|").
  assert (L : is_line "|"%byte l) by (exists (B "$MyINFO " ++ a); split; [reflexivity|apply contains_byte_false; reflexivity]).
  assert (LF : line_for 32 l (B "MyINFO") a).
  { exists (B "$MyINFO " ++ a), (Some (B "MyINFO")). split; [reflexivity|]. split; [apply contains_byte_false; reflexivity|]. split.
    - apply (pa_args (B "MyINFO") a). apply contains_byte_false. reflexivity.
    - split; [reflexivity|]. split; [discriminate|]. split; [vm_compute; discriminate|]. apply ascii_name_spec. reflexivity. }
  destruct (msg_unmarshal (Some C104_all_x) (new_message (B "MyINFO")) a) as [m [[]|e|]] eqn:D; [|vm_compute in D; discriminate D..].
  pose proof (means_decoded (Some C104_all_x) 32 l _ _ _ _ LF D) as M. cbn in M. destruct (H _ _ _ a L LF M) as [m' K].
  assert (P : exists e s, process_line (C104_answering None) l (mkRs tt None None SNil []) = (LReturn (Some e), s)) by (eexists; eexists; vm_compute; reflexivity).
  destruct P as (e & s & P). pose proof (C104_once _ _ _ _ K (C104_run _ _ _ _ L P)) as E. discriminate E.
Qed.
Print Assumptions C104_continue_refuted.
