(** Property theorems C115 and C116: all calls of the NMDC message reader with all callbacks
    (nmdc/reader.go:116-329).
    Specification: SpecCalls.v.  Proofs: NmdcCallFacts.v. *)
From Verif Require Import Base BaseFacts Utf8 SpecText SpecHash SpecNmdc SpecRead NmdcText NmdcTextFacts NmdcChat NmdcHub NmdcFiles NmdcMessage SpecFrame SpecReuse NmdcDecodeFacts NmdcReuseFacts NmdcReadMsg.
From Verif Require Import LineReader SpecLine LineReaderStream NmdcReader SpecReader NmdcReaderFacts SpecStream NmdcStreamFacts SpecCalls NmdcCallFacts.
From Coq Require Import Lia.

(** ** C115: any calls, with any callbacks, on any stream. *)
Theorem C115_calls {W Z} (act : Z -> zaction Z) maxline dec cfg c fs rest (w : W) ks :
  Forall quiet c -> script_data c = concat fs ++ rest -> Forall (is_line "|"%byte) fs -> ~ In "|"%byte rest ->
  Forall (fun l => within maxline (length l)) fs -> within maxline (S (length rest)) -> Forall call_sized ks -> typed cfg ->
  exists os w2 R2, calls_on cfg w dec fs ks os w2 (nr_dec R2) /\
    eventually (fun f => do_calls act f ks w (nreader_on maxline dec cfg c) = Some (os, w2, R2)).
Proof.
  intros Hq Hs HL Hr Hw Hwr HZ TY.
  destruct (calls_say act cfg TY ks fs w dec _ HL (limited_supplies (W:=W) act maxline c fs rest Hq Hs HL Hr Hw Hwr) HZ) as (os & w2 & dec2 & R2 & C & E & <-).
  now exists os, w2, R2.
Qed.
Print Assumptions C115_calls.

(** For the example: no compression. *)
Definition C115_nozlib (z : unit) : zaction unit := ZLast [].
(** The callbacks of the example write down what they were told.  This one drops arguments that start
    with a number sign and stops at an exclamation mark. *)
Definition C115_raw (w : list bytes) (cmd : option bytes) (a : bytes) : list bytes * hook_res :=
  (w ++ [a], match a with b :: _ => if beq b "#" then HDrop else if beq b "!" then HErr (EText "stopped") else HPass | [] => HPass end).
(** This one drops a chat message "hi" and marks its name, and marks the name of a user who arrives. *)
Definition C115_note (x : list bytes * msg) : (list bytes * msg) * hook_res :=
  let (w, m) := x in
  match m with
  | MChat ch => if bytes_eqb (ch_text ch) (B "hi") then ((w ++ [msg_type m], MChat (mk_chat (ch_name ch ++ B "*") (ch_text ch))), HDrop) else ((w ++ [msg_type m], m), HPass)
  | MName KHello n => ((w ++ [msg_type m], MName KHello (n ++ B "*")), HPass)
  | _ => ((w ++ [msg_type m], m), HPass)
  end.
(** This one ignores errors of commands with D, tolerates them with S and replaces others. *)
Definition C115_failed (w : list bytes) (l : bytes) (e : error) : list bytes * (bool * option error) :=
  (w ++ [l], match l with _ :: b :: _ => if beq b "D" then (false, None) else if beq b "S" then (true, None) else (true, Some (EText "replaced")) | _ => (true, None) end).
(** This one stops at a keep-alive after twelve notes. *)
Definition C115_alive (w : list bytes) : list bytes * option error := (w ++ [B "|"], if 12 <? length w then Some (EText "too many") else None).
(** All of them. *)
Definition C115_cfg : ncfg (list bytes) := mkNcfg 32 (Some C115_alive) [C115_raw] None (Some C115_failed) [C115_note].
(** The lines: a keep-alive, one dropped by a callback, a dropped chat message, one without a name into the same
    message; a command that cannot be decoded (ignored), another of the same type; a wrong type;
    one that fits the second of two messages; one that cannot be decoded but is tolerated, one whose
    error is replaced; a line that
    stops; another keep-alive, a line without a command name. *)
Definition C115_lines : list bytes :=
  [B "|"; B "#x|"; B "<spam> hi|"; B "hello|"; B "$Direction x|"; B "$Direction Upload 5|"; B "$Hello bob|"; B "$Hello ann|"; B "$SR x|"; B "$ADCGET x|"; B "!x|"; B "|"; B "$ x|"].
(** One call of each kind and more. *)
Definition C115_ks : list call :=
  [CNew; CNew; CInto (MChat chat0); CAny [MChat chat0; MName KHello (B "x"); MRaw (B "Hello") []]; CNew; CNew; CAny []; CNew; CNew; CNew; CNew].
(** Answers and state without the reader. *)
Definition C115_answers {A B C} (x : option (A * B * C)) : option (A * B) := match x with Some (a, b, _) => Some (a, b) | None => None end.
Example C115_case : Forall (is_line "|"%byte) C115_lines /\ Forall call_sized C115_ks /\ typed C115_cfg /\
  match C115_answers (do_calls C115_nozlib 60 C115_ks [] (nreader_on 0 None C115_cfg [RD (concat C115_lines) None])) with
  | Some (os, w) =>
      os = [RNew (Ok (Some (MChat (mk_chat (B "spam*") (B "hello"))))); RNew (Ok (Some (MDirection (mk_direction true 5))));
        RInto (Err (EUnexpectedCmd [] (B "Hello") (B "bob"))) (MChat chat0);
        RAny (Ok (Some 1)) [MChat chat0; MName KHello (B "ann*"); MRaw (B "Hello") []];
        RNew (Ok (Some (MSR sr0))); RNew (Err (EText "replaced")); RAny Panic []; RNew (Err (EText "stopped")); RNew (Err (EText "too many")); RNew (Err (EProtocol "command name is empty")); RNew (Err EEOF)] /\
      w = [B "|"; B "#x"; B "<spam> hi"; []; B "hello"; []; B "x"; B "$Direction x"; B "Upload 5"; B "Direction"; B "bob"; B "ann"; B "Hello"; B "x"; B "$SR x"; B "x"; B "$ADCGET x"; B "!x"; B "|"; B "x"]
  | None => False end.
Proof.
  split; [|split; [repeat (apply Forall_cons; [cbn [call_sized sized]; first [exact I|apply Forall_nil|repeat (apply Forall_cons; [exact I|]); apply Forall_nil]|]); apply Forall_nil|split; [|vm_compute; split; reflexivity]]]. unfold C115_lines.
  - repeat (apply Forall_cons; [match goal with |- is_line _ ?l => exists (removelast l); split; [vm_compute; reflexivity|apply contains_byte_false; vm_compute; reflexivity] end|]). constructor.
  - constructor; [|constructor]. intros [w m] H. cbn [snd] in H. unfold C115_note. destruct m; try exact H; try (destruct k; exact H). destruct (bytes_eqb (ch_text _) (B "hi")); exact I.
Qed.

(** ** C116: the decoder in use. *)
(** With such a decoder, the callback for unknown encodings is never asked: the calls give the same
    answers without it, and the decoder stays. *)
Theorem C116_settled {W Z} (act : Z -> zaction Z) d cfg ks : proper d -> forall f (w : W) r,
  do_calls act f ks w (mkNreader r (Some d) cfg) =
  match do_calls act f ks w (mkNreader r (Some d) (without cfg)) with
  | Some (os, w2, R2) => Some (os, w2, mkNreader (nr_line R2) (Some d) cfg)
  | None => None
  end.
Proof. intros P f w r. exact (settled act d cfg P f ks w r). Qed.
Print Assumptions C116_settled.
(** A decoder that turns every byte into 'x'. *)
Definition C116_x : bytes -> option bytes := fun s => Some (map (fun _ => "x"%byte) s).
(** Callbacks: no decoder for unknown encodings; a user called "b" is dropped. *)
Definition C116_cfg : ncfg unit :=
  mkNcfg 32 None [] (Some (fun w _ => (w, inl None))) None [dropping (fun m => match m with MName _ n => bytes_eqb n (B "b") | _ => false end)].
(** It is proper, and a line that is not UTF-8 does not reach the callback; without a decoder it does. *)
Example C116_case : proper C116_x /\
  C115_answers (do_calls C115_nozlib 30 [CNew] tt (nreader_on 0 (Some C116_x) C116_cfg [RD (B "$Hello " ++ [xff] ++ B "|") None])) = Some ([RNew (Ok (Some (MName KHello (B "x"))))], tt) /\
  C115_answers (do_calls C115_nozlib 30 [CNew] tt (nreader_on 0 None C116_cfg [RD (B "$Hello " ++ [xff] ++ B "|") None])) = Some ([RNew (Ok (Some (MName KHello [xef; xbf; xbd])))], tt).
Proof.
  split; [|split; vm_compute; reflexivity]. intros s t [= <-]. apply utf8_text_iff. clear. induction s as [|b s IH]; [reflexivity|]. exact IH.
Qed.

(** A decoder that is not proper. *)
Definition C116_odd : bytes -> option bytes := fun s => if bytes_eqb s (B "b") then Some [xff] else C116_x s.
(** Finding: with such a decoder the callback is asked, and when it answers nil, the decoder of the
    reader is not used for the remaining lines of the call, although it is still set. *)
Theorem C116_kept_refuted : ~ forall d l a m, is_line "|"%byte l -> line_for 32 l (B "Hello") a -> line_means (Some d) 32 l (Ok (Some m)) -> m <> MName KHello (B "b") ->
  exists R, eventually (fun f => read_msg C115_nozlib f tt (nreader_on 0 (Some d) C116_cfg [RD (B "$Hello b|" ++ l) None]) = Some (Ok (Some m), tt, R)) /\ nr_dec R = Some d.
Proof.
  intros H. set (l := B "$Hello c|").
  assert (L : is_line "|"%byte l) by (exists (B "$Hello c"); split; [reflexivity|apply contains_byte_false; reflexivity]).
  assert (LF : line_for 32 l (B "Hello") (B "c")).
  { exists (B "$Hello c"), (Some (B "Hello")). split; [reflexivity|]. split; [apply contains_byte_false; reflexivity|]. split.
    - apply (pa_args (B "Hello") (B "c")). apply contains_byte_false. reflexivity.
    - split; [reflexivity|]. split; [discriminate|]. split; [vm_compute; discriminate|]. apply ascii_name_spec. reflexivity. }
  assert (M : line_means (Some C116_odd) 32 l (Ok (Some (MName KHello (B "x"))))) by (apply (means_decoded (Some C116_odd) 32 l _ _ (MName KHello (B "x")) (Ok tt) LF); vm_compute; reflexivity).
  destruct (H C116_odd l (B "c") _ L LF M) as (R & [f E] & _); [discriminate|].
  assert (K : exists R', eventually (fun f => read_msg C115_nozlib f tt (nreader_on 0 (Some C116_odd) C116_cfg [RD (B "$Hello b|" ++ l) None]) = Some (Ok (Some (MName KHello (B "c"))), tt, R'))).
  { assert (HS : supplies (W:=unit) C115_nozlib (nr_line (nreader_on 0 (Some C116_odd) C116_cfg [RD (B "$Hello b|" ++ l) None])) [B "$Hello b|"; l]).
    { apply (limited_supplies C115_nozlib 0 [RD (B "$Hello b|" ++ l) None] [B "$Hello b|"; l] []).
      - constructor; [now right|constructor].
      - reflexivity.
      - constructor; [exists (B "$Hello b"); split; [reflexivity|apply contains_byte_false; reflexivity]|constructor; [exact L|constructor]].
      - intros [].
      - constructor; [left; lia|constructor; [left; lia|constructor]].
      - left; lia. }
    destruct (supplies_msg C115_nozlib _ tt (nreader_on 0 (Some C116_odd) C116_cfg [RD (B "$Hello b|" ++ l) None]) (LReturn None) (mkRs tt None (Some C116_odd) (SOwn (MName KHello (B "c"))) []) [] HS) as (r & _ & K).
    - vm_compute. reflexivity.
    - exists (mkNreader r (Some C116_odd) C116_cfg). exact K. }
  destruct K as (R' & g & E'). specialize (E (Nat.max f g) ltac:(lia)). specialize (E' (Nat.max f g) ltac:(lia)). rewrite E in E'. discriminate.
Qed.
Print Assumptions C116_kept_refuted.
