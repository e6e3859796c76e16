(** The message reader of nmdc/reader.go on top of the line reader (LineReader.v).

    Hooks are functions on an arbitrary state [W] (shared with the line hooks).  They see
    messages as values; a message hook may change the message it is given (a pointer in Go) and
    says what it holds afterwards.  Hooks that call methods of the reader are not modelled.
    A *RawMessage type switch is [is_raw], a *ChatMessage
    type switch is [is_chat].  Message pointers passed to ReadMsgToAny are distinct. *)
From Verif Require Import Base Utf8 NmdcText NmdcChat NmdcMessage LineReader.
Local Open Scope N_scope.

(** isASCII, nmdc/utils.go:10-30 *)
Definition name_byte (b : byte) : bool :=
  (beq b "/"%byte || beq b "-"%byte || beq b "_"%byte || beq b "."%byte || beq b ":"%byte ||
   ((b2n "a"%byte <=? b2n b) && (b2n b <=? b2n "z"%byte)) ||
   ((b2n "A"%byte <=? b2n b) && (b2n b <=? b2n "Z"%byte)) ||
   ((b2n "0"%byte <=? b2n b) && (b2n b <=? b2n "9"%byte)))%bool.
(** isASCII, nmdc/utils.go:10-30 *)
Definition is_ascii_name (p : bytes) : bool := forallb name_byte p.

(** The callbacks and the limit of a Reader, nmdc/reader.go:52-81.  A nil callback is None.
    OnUnmarshalError returns (ok, err); [nc_raw] hooks get None for the nil command of a
    chat message. *)
Record ncfg (W : Type) := mkNcfg {
  nc_max_cmd : Z;
  nc_keep_alive : option (W -> W * option error);
  nc_raw : list (W -> option bytes -> bytes -> W * hook_res);
  nc_unknown : option (W -> bytes -> W * (codec + error));
  nc_unmarshal_err : option (W -> bytes -> error -> W * (bool * option error));
  nc_msg : list (W * msg -> (W * msg) * hook_res)
}.
Arguments mkNcfg {W}. Arguments nc_max_cmd {W}. Arguments nc_keep_alive {W}. Arguments nc_raw {W}.
Arguments nc_unknown {W}. Arguments nc_unmarshal_err {W}. Arguments nc_msg {W}.

(** Reader, nmdc/reader.go:52-81 *)
Record nreader (W zstate : Type) := mkNreader {
  nr_line : reader W zstate;
  nr_dec : codec;
  nr_cfg : ncfg W
}.
Arguments mkNreader {W zstate}. Arguments nr_line {W zstate}. Arguments nr_dec {W zstate}. Arguments nr_cfg {W zstate}.

(** NewReader, nmdc/reader.go:45-50; maxCmdName, nmdc/reader.go:13-16; Delimiter. *)
Definition new_nreader {W zstate} (c : script) : nreader W zstate :=
  mkNreader (new_reader c delimiter) None (mkNcfg 32 None [] None None []).
(** SetDecoder, nmdc/reader.go:112-114 *)
Definition set_decoder {W zstate} (d : codec) (R : nreader W zstate) : nreader W zstate :=
  mkNreader (nr_line R) d (nr_cfg R).

(** A message used as a pointer of the caller: nil, a message of its own (new or passed to
    ReadMsgTo), or the i-th of the messages passed to ReadMsgToAny; nmdc/reader.go:117-146. *)
Inductive slot := SNil | SOwn (m : msg) | SAllowed (i : nat).

(** The state of readMsgTo between two lines, nmdc/reader.go:151-152: hook state, the local
    decoder, the decoder stored in the Reader, [*ptr] and the messages [allowed]. *)
Record rstate (W : Type) := mkRs {
  rs_w : W;
  rs_dec : codec;
  rs_set : codec;
  rs_slot : slot;
  rs_allowed : list msg
}.
Arguments mkRs {W}. Arguments rs_w {W}. Arguments rs_dec {W}. Arguments rs_set {W}. Arguments rs_slot {W}. Arguments rs_allowed {W}.

(** Model only: a new state of the hooks, nmdc/reader.go:169,189,251,294,314,321 *)
Definition with_w {W} (w : W) (s : rstate W) := mkRs w (rs_dec s) (rs_set s) (rs_slot s) (rs_allowed s).
(** *ptr = out, nmdc/reader.go:215,231,265,280 *)
Definition with_slot {W} (o : slot) (s : rstate W) := mkRs (rs_w s) (rs_dec s) (rs_set s) o (rs_allowed s).

(** [continue read], return or panic; nmdc/reader.go:152-327. *)
Inductive lstep := LSkip | LReturn (e : option error) | LCrash.

(** The message behind a slot; nmdc/reader.go:177. *)
Definition slot_msg {W} (s : rstate W) : option msg :=
  match rs_slot s with SNil => None | SOwn m => Some m | SAllowed i => nth_error (rs_allowed s) i end.

(** Model only: replace the i-th element (writing through allowed[i], nmdc/reader.go:291,307). *)
Fixpoint set_nth {A} (i : nat) (a : A) (l : list A) : list A :=
  match i, l with
  | _, [] => []
  | O, _ :: l => a :: l
  | S i, b :: l => b :: set_nth i a l
  end.
(** Model only: write through *ptr (nmdc/reader.go:291,307). *)
Definition put_msg {W} (m : msg) (s : rstate W) : rstate W :=
  match rs_slot s with
  | SAllowed i => mkRs (rs_w s) (rs_dec s) (rs_set s) (rs_slot s) (set_nth i m (rs_allowed s))
  | _ => with_slot (SOwn m) s
  end.

(** The type assertion to *RawMessage, nmdc/reader.go:212,260 *)
Definition is_raw (m : msg) : bool := match m with MRaw _ _ => true | _ => false end.
(** The type assertion to *ChatMessage, nmdc/reader.go:232,261,281 *)
Definition is_chat (m : msg) : bool := match m with MChat _ => true | _ => false end.

(** The raw hook loops, nmdc/reader.go:188-194 and 250-256 *)
Fixpoint run_raw {W} (hs : list (W -> option bytes -> bytes -> W * hook_res)) (w : W) (cmd : option bytes) (args : bytes) : W * hook_res :=
  match hs with
  | [] => (w, HPass)
  | h :: hs' => match h w cmd args with (w1, HPass) => run_raw hs' w1 cmd args | x => x end
  end.
(** The message hook loop, nmdc/reader.go:320-326 *)
Fixpoint run_msgs {W} (hs : list (W * msg -> (W * msg) * hook_res)) (p : W * msg) : (W * msg) * hook_res :=
  match hs with
  | [] => (p, HPass)
  | h :: hs' => match h p with (p1, HPass) => run_msgs hs' p1 | x => x end
  end.

(** The loops over [allowed], nmdc/reader.go:211-218 and 259-268: index of the first match. *)
Fixpoint first_index {A} (p : A -> bool) (l : list A) : option nat :=
  match l with
  | [] => None
  | a :: l' => if p a then Some O else match first_index p l' with Some i => Some (S i) | None => None end
  end.

(** Choosing [out], nmdc/reader.go:208-246 for commands (cmd = Some typ) and 257-289 for
    chat (None): the new state, or the error of ErrUnexpectedCommand. *)
Definition choose {W} (cmd : option bytes) (args : bytes) (s : rstate W) : error + rstate W :=
  let typ := match cmd with Some t => t | None => [] end in
  let accept m := match cmd with
                  | Some t => (is_raw m || bytes_eqb (msg_type m) t)%bool
                  | None => (is_raw m || is_chat m)%bool
                  end in
  let s1 := match rs_allowed s with
            | [] => inr s
            | m0 :: _ => match first_index accept (rs_allowed s) with
                         | Some i => inr (with_slot (SAllowed i) s)
                         | None => inl (EUnexpectedCmd (msg_type m0) typ args)
                         end
            end in
  match s1 with
  | inl e => inl e
  | inr s1 =>
      match slot_msg s1, cmd with
      | None, Some t => inr (with_slot (SOwn (new_message t)) s1)
      | None, None => inr (with_slot (SOwn (MChat chat0)) s1)
      | Some m, Some t =>
          if is_chat m then inl (EUnexpectedCmd [] typ args)
          else if bytes_eqb (msg_type m) t then inr s1 else inl (EUnexpectedCmd (msg_type m) typ args)
      | Some m, None => if is_chat m then inr s1 else inl (EUnexpectedCmd (msg_type m) typ args)
      end
  end.

(** Decoding, nmdc/reader.go:291-309, into the message behind *ptr.  Err: UnmarshalNMDC
    failed; [inl]: return of the error of OnUnknownEncoding. *)
Definition decode_into {W} (c : ncfg W) (args : bytes) (s : rstate W) : rstate W * (error + res unit) :=
  match slot_msg s with
  | None => (s, inr Panic)
  | Some m =>
      let (m1, r1) := msg_unmarshal (rs_dec s) m args in
      let s1 := put_msg m1 s in
      match nc_unknown c, r1 with
      | Some f, Err (EUnknownEnc text) =>
          match f (rs_w s1) text with
          | (w, inr e) => (with_w w s1, inl e)
          | (w, inl dec) =>
              let s2 := mkRs w dec (match dec with None => rs_set s1 | Some _ => dec end) (rs_slot s1) (rs_allowed s1) in
              let args2 := match dec with None => to_valid args | Some _ => args end in
              let (m2, r2) := msg_unmarshal dec m1 args2 in
              (put_msg m2 s2, inr r2)
          end
      | _, _ => (s1, inr r1)
      end
  end.

(** From the choice of [out] to the end of the loop body, nmdc/reader.go:208-246,257-327. *)
Definition accept_line {W} (c : ncfg W) (orig : bytes) (cmd : option bytes) (args : bytes) (s : rstate W) : lstep * rstate W :=
  match choose cmd args s with
  | inl e => (LReturn (Some e), s)
  | inr s =>
      match decode_into c args s with
      | (s, inl e) => (LReturn (Some e), s)
      | (s, inr Panic) => (LCrash, s)
      | (s, inr (Err e)) =>
          match nc_unmarshal_err c with
          | None => (LReturn (Some e), s)
          | Some f => match f (rs_w s) orig e with
                      | (w, (false, _)) => (LSkip, with_w w s)
                      | (w, (true, r)) => (LReturn r, with_w w s)
                      end
          end
      | (s, inr (Ok _)) =>
          match slot_msg s with
          | None => (LCrash, s)
          | Some m => match run_msgs (nc_msg c) (rs_w s, m) with
                      | ((w, m'), HPass) => (LReturn None, with_w w (put_msg m' s))
                      | ((w, m'), HDrop) => (LSkip, with_w w (put_msg m' s))
                      | ((w, m'), HErr e) => (LReturn (Some e), with_w w (put_msg m' s))
                      end
          end
      end
  end.

(** nmdc/reader.go:155-159 *)
Definition err_no_delim : error := EProtocol "no message delimiter".
(** nmdc/reader.go:160-164 *)
Definition err_null : error := EProtocol "message should not contain null characters".
(** nmdc/reader.go:195-198 *)
Definition err_cmd_empty : error := EProtocol "command name is empty".
(** nmdc/reader.go:199-202 *)
Definition err_cmd_long : error := EProtocol "command name is too long".
(** nmdc/reader.go:203-206 *)
Definition err_cmd_ascii : error := EProtocol "command name should be in acsii".

(** The body of the loop for one line, nmdc/reader.go:155-327. *)
Definition process_line {W} (c : ncfg W) (line : bytes) (s : rstate W) : lstep * rstate W :=
  if negb (match line with [] => false | _ => beq (last line x00) delimiter end) then (LReturn (Some err_no_delim), s)
  else if contains_byte x00 line then (LReturn (Some err_null), s)
  else
    match removelast line with
    | [] =>
        match nc_keep_alive c with
        | None => (LSkip, s)
        | Some f => match f (rs_w s) with
                    | (w, Some e) => (LReturn (Some e), with_w w s)
                    | (w, None) => (LSkip, with_w w s)
                    end
        end
    | b :: l =>
        if beq b "$"%byte then
          let (cmd, args) := match cut " "%byte l with Some (a, r) => (a, r) | None => (l, []) end in
          match run_raw (nc_raw c) (rs_w s) (Some cmd) args with
          | (w, HErr e) => (LReturn (Some e), with_w w s)
          | (w, HDrop) => (LSkip, with_w w s)
          | (w, HPass) =>
              let s := with_w w s in
              match cmd with
              | [] => (LReturn (Some err_cmd_empty), s)
              | _ =>
                  if (nc_max_cmd c <? Z.of_nat (length cmd))%Z then (LReturn (Some err_cmd_long), s)
                  else if negb (is_ascii_name cmd) then (LReturn (Some err_cmd_ascii), s)
                  else accept_line c (removelast line) (Some cmd) args s
              end
          end
        else
          match run_raw (nc_raw c) (rs_w s) None (removelast line) with
          | (w, HErr e) => (LReturn (Some e), with_w w s)
          | (w, HDrop) => (LSkip, with_w w s)
          | (w, HPass) => accept_line c (removelast line) None (removelast line) (with_w w s)
          end
    end.

(** The loop of readMsgTo, nmdc/reader.go:150-328.  None: out of fuel.  A panic inside the
    line reader is a panic of the whole call. *)
Section Loop.
Context {W zstate : Type} (act : zstate -> zaction zstate).

(** The loop of readMsgTo, nmdc/reader.go:148-329 *)
Fixpoint read_to (fuel rl : nat) (c : ncfg W) (s : rstate W) (r : reader W zstate)
  : option (lstep * rstate W * reader W zstate) :=
  match fuel with
  | O => None
  | S f =>
      match read_line act rl (rs_w s) r with
      | None => None
      | Some (LPanic, w, r') => Some (LCrash, with_w w s, r')
      | Some (LErr _ e, w, r') => Some (LReturn (Some e), with_w w s, r')
      | Some (LLine l, w, r') =>
          match process_line c l (with_w w s) with
          | (LSkip, s') => read_to f rl c s' r'
          | (x, s') => Some (x, s', r')
          end
      end
  end.

(** readMsgTo with the initial *ptr and allowed, nmdc/reader.go:148-149. *)
Definition read_call (fuel : nat) (o : slot) (allowed : list msg) (w : W) (R : nreader W zstate)
  : option (lstep * rstate W * nreader W zstate) :=
  match read_to fuel fuel (nr_cfg R) (mkRs w (nr_dec R) (nr_dec R) o allowed) (nr_line R) with
  | None => None
  | Some (x, s, r) => Some (x, s, mkNreader r (rs_set s) (nr_cfg R))
  end.

(** ReadMsg, nmdc/reader.go:117-123.  Ok None would be (nil, nil). *)
Definition read_msg (fuel : nat) (w : W) (R : nreader W zstate) : option (res (option msg) * W * nreader W zstate) :=
  match read_call fuel SNil [] w R with
  | None => None
  | Some (LReturn None, s, R') => Some (Ok (slot_msg s), rs_w s, R')
  | Some (LReturn (Some e), s, R') => Some (Err e, rs_w s, R')
  | Some (_, s, R') => Some (Panic, rs_w s, R')
  end.

(** ReadMsgTo, nmdc/reader.go:127-132: the result and the (possibly modified) message of the
    caller; a nil argument panics and is not modelled. *)
Definition read_msg_to (fuel : nat) (m : msg) (w : W) (R : nreader W zstate) : option (res unit * msg * W * nreader W zstate) :=
  match read_call fuel (SOwn m) [] w R with
  | None => None
  | Some (x, s, R') =>
      Some (match x with LReturn None => Ok tt | LReturn (Some e) => Err e | _ => Panic end,
            match slot_msg s with Some m' => m' | None => m end, rs_w s, R')
  end.

(** ReadMsgToAny, nmdc/reader.go:137-146: the index of the returned message among the
    arguments (None: nil) and the arguments after the call. *)
Definition read_msg_any (fuel : nat) (ms : list msg) (w : W) (R : nreader W zstate)
  : option (res (option nat) * list msg * W * nreader W zstate) :=
  match ms with
  | [] => Some (Panic, ms, w, R)
  | _ =>
      match read_call fuel SNil ms w R with
      | None => None
      | Some (x, s, R') =>
          Some (match x with
                | LReturn None => Ok (match rs_slot s with SAllowed i => Some i | _ => None end)
                | LReturn (Some e) => Err e
                | _ => Panic
                end, rs_allowed s, rs_w s, R')
      end
  end.
End Loop.

(** Unmarshal, nmdc/message.go:149-158: a reader over a bytes.Reader (which delivers the data
    in one read when it fits the buffer, in several otherwise) without hooks. *)
Definition unmarshal {zstate} (act : zstate -> zaction zstate) (fuel : nat) (dec : codec) (c : script) : option (res (option msg)) :=
  match read_msg act fuel tt (set_decoder dec (new_nreader c)) with
  | None => None
  | Some (Err EEOF, _, _) => Some (Err EUnexpectedEOF)
  | Some (x, _, _) => Some x
  end.
