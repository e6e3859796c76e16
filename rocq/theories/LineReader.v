(** lineproto/reader.go: the line reader.

    Simplifications (all of the file is modelled except as noted):
    - a buffer is represented by its unread part [buf[off:]];
    - the [line] slice returned by ReadLine is a value, i.e. callers obey "only valid
      until the next call" and hooks do not modify the line in place (LineShare.v has the
      buffer and hooks that do);
    - hooks do not call methods of the reader they are attached to; they may have
      arbitrary state, represented by a world [W] threaded through the calls;
    - the connection is a finite script of Read results (every finite behaviour of an
      io.Reader is such a script), then io.EOF forever;
    - the zlib reader is an arbitrary machine (type [zaction] below) that pulls bytes
      from the original reader through ReadByte or io.ReadFull like compress/zlib does;
    - loops run on fuel, [None] meaning that the fuel was not sufficient. *)
From Verif Require Import Base.

(** lineproto/reader.go:14-15 *)
Definition read_buf : nat := 2048.
(** lineproto/reader.go:15 *)
Definition max_line_def : Z := 32768.

(** lineproto/reader.go:19-22 *)
Definition err_closed : error := EText "lineproto: reader is closed".
(** lineproto/reader.go:20 *)
Definition err_exhausted : error := EText "lineproto: message is too long".
(** lineproto/reader.go:21 *)
Definition err_zlib_active : error := EText "lineproto: zlib already activated".

(** Result of one Read call of the connection: data and optional error (lineproto/reader.go:66,95). *)
Inductive read_event := RD (d : bytes) (e : option error).
(** The answers of the connection to successive reads, lineproto/reader.go:66,95 *)
Notation script := (list read_event).

(** [r.r.Read(p)] with [len(p) = n] on the connection (lineproto/reader.go:66,95):
    a chunk larger than [p] is delivered in parts. *)
Definition conn_read (n : nat) (c : script) : bytes * option error * script :=
  match c with
  | [] => ([], Some EEOF, [])
  | RD d e :: t =>
      if (length d <=? n)%nat then (d, e, t)
      else (firstn n d, None, RD (skipn n d) e :: t)
  end.

(** What compress/zlib may do next (flate.Reader contract, lineproto/reader.go:41-44):
    ask for a byte with ReadByte, ask for [n] bytes with io.ReadFull, announce that the
    header is complete, hand out data, hand out data and finish, fail. *)
Inductive zaction (zstate : Type) :=
| ZByte (k : byte -> zstate)
| ZFull (n : nat) (k : bytes -> zstate)
| ZReady (z : zstate)
| ZGive (d : bytes) (z : zstate)
| ZLast (d : bytes)
| ZFail (e : error).
Arguments ZByte {zstate}. Arguments ZFull {zstate}. Arguments ZReady {zstate}.
Arguments ZGive {zstate}. Arguments ZLast {zstate}. Arguments ZFail {zstate}.

(** Result of a hook call: (true,nil), (false,nil), (_,err); lineproto/reader.go:139 *)
Inductive hook_res := HPass | HDrop | HErr (e : error).

(** A function of onLine, lineproto/reader.go:139; [W] is the state of its environment *)
Definition hook (W : Type) : Type := W -> bytes -> W * hook_res.

(** The hook loops of lineproto/reader.go:214-222 and lineproto/writer.go:187-194:
    stop at the first hook that does not pass the line. *)
Fixpoint run_hooks {W} (hs : list (hook W)) (w : W) (line : bytes) : W * hook_res :=
  match hs with
  | [] => (w, HPass)
  | h :: t => match h w line with
              | (w', HPass) => run_hooks t w' line
              | r => r
              end
  end.

(** io.EOF in the middle of a compressed stream becomes io.ErrUnexpectedEOF
    (compress/flate noEOF, io.ReadFull) (used by the zlib machine behind lineproto/reader.go:261,266). *)
Definition no_eof (e : error) : error := match e with EEOF => EUnexpectedEOF | _ => e end.

Section Reader.
Variables (W zstate : Type) (act : zstate -> zaction zstate) (zinit : zstate).

(** State of the zlib reader: decompressed data not yet handed out, then the machine
    or its sticky error (lineproto/reader.go:132). *)
Record zrd := mkZ { z_pend : bytes; z_st : zstate + error }.

(** lineproto/reader.go:125-140.  [rd_zcur] tells whether [cur] is the compressed
    reader; [rd_orig] and [rd_comp] are the unread buffers of the two bufReaders. *)
Record reader := mkReader {
  rd_delim : byte;
  rd_max : Z;
  rd_open : bool;                (* original != nil *)
  rd_conn : script;
  rd_orig : bytes;
  rd_zlib_on : bool;
  rd_zcur : bool;
  rd_z : zrd;
  rd_comp : bytes;
  rd_hooks : list (hook W)
}.

(** lineproto/reader.go:143-152 *)
Definition new_reader (c : script) (delim : byte) : reader :=
  mkReader delim max_line_def true c [] false false (mkZ [] (inr EEOF)) [] [].

(** lineproto/reader.go:155-169 *)
Definition close_reader (r : reader) : reader :=
  mkReader (rd_delim r) (rd_max r) false (rd_conn r) [] false false (mkZ [] (inr EEOF)) [] [].

(** lineproto/reader.go:172-174 *)
Definition set_max_line (sz : Z) (r : reader) : reader :=
  mkReader (rd_delim r) sz (rd_open r) (rd_conn r) (rd_orig r) (rd_zlib_on r) (rd_zcur r)
    (rd_z r) (rd_comp r) (rd_hooks r).

(** lineproto/reader.go:181-183 *)
Definition on_line (h : hook W) (r : reader) : reader :=
  mkReader (rd_delim r) (rd_max r) (rd_open r) (rd_conn r) (rd_orig r) (rd_zlib_on r) (rd_zcur r)
    (rd_z r) (rd_comp r) (rd_hooks r ++ [h]).

(** Field updates (lineproto/reader.go:53-63,130). *)
Definition with_plain (c : script) (o : bytes) (r : reader) : reader :=
  mkReader (rd_delim r) (rd_max r) (rd_open r) c o (rd_zlib_on r) (rd_zcur r)
    (rd_z r) (rd_comp r) (rd_hooks r).
(** r.zlib, lineproto/reader.go:132,270 *)
Definition with_z (z : zrd) (r : reader) : reader :=
  mkReader (rd_delim r) (rd_max r) (rd_open r) (rd_conn r) (rd_orig r) (rd_zlib_on r) (rd_zcur r)
    z (rd_comp r) (rd_hooks r).
(** r.compressed, lineproto/reader.go:133,273-277 *)
Definition with_comp (b : bytes) (r : reader) : reader :=
  mkReader (rd_delim r) (rd_max r) (rd_open r) (rd_conn r) (rd_orig r) (rd_zlib_on r) (rd_zcur r)
    (rd_z r) b (rd_hooks r).
(** r.zlibOn and r.cur, lineproto/reader.go:129,131,202-203,258,278 *)
Definition with_mode (on zc : bool) (r : reader) : reader :=
  mkReader (rd_delim r) (rd_max r) (rd_open r) (rd_conn r) (rd_orig r) on zc
    (rd_z r) (rd_comp r) (rd_hooks r).

(** Outcome of a call that may panic (methods of lineproto/reader.go:65-115,230-249). *)
Inductive rout (A : Type) := ROk (a : A) | RErr (e : error) | RPanic.
Arguments ROk {A}. Arguments RErr {A}. Arguments RPanic {A}.

(** bufReader.peek on the connection, lineproto/reader.go:65-75: an error that comes
    together with data is dropped. *)
Definition peek_conn (c : script) : (error + bytes) * script :=
  match conn_read read_buf c with
  | ([], Some e, c') => (inl e, c')
  | (d, _, c') => (inr d, c')
  end.

(** bufReader.ReadByte on the original reader, lineproto/reader.go:77-86: indexing the
    empty buffer after a (0, nil) read panics. *)
Definition orig_read_byte (o : bytes) (c : script) : rout byte * bytes * script :=
  match o with
  | b :: o' => (ROk b, o', c)
  | [] => match peek_conn c with
          | (inl e, c') => (RErr e, [], c')
          | (inr [], c') => (RPanic, [], c')
          | (inr (b :: o'), c') => (ROk b, o', c')
          end
  end.

(** The part of io.ReadFull that bypasses the (empty) buffer, lineproto/reader.go:94-95. *)
Fixpoint full_conn (m : nat) (acc : bytes) (c : script) : (error + bytes) * script :=
  match m with
  | O => (inr acc, c)
  | _ =>
      match c with
      | [] => (inl EEOF, [])
      | RD d e :: t =>
          if (m <? length d)%nat then (inr (acc ++ firstn m d), RD (skipn m d) e :: t)
          else if (m =? length d)%nat then (inr (acc ++ d), t)
          else match e with
               | Some err => (inl err, t)
               | None => full_conn (m - length d) (acc ++ d) t
               end
      end
  end.

(** io.ReadFull(original, p) with [len(p) = m] through bufReader.Read,
    lineproto/reader.go:88-96. *)
Definition orig_read_full (m : nat) (o : bytes) (c : script) : (error + bytes) * bytes * script :=
  if (m <=? length o)%nat then (inr (firstn m o), skipn m o, c)
  else let '(r, c') := full_conn (m - length o) o c in (r, [], c').

(** Read(p), [len(p) = n], of the zlib reader, reading its input from the original
    bufReader (lineproto/reader.go:261,266: [r.original] is passed to zlib). *)
Fixpoint zread (fuel n : nat) (z : zrd) (o : bytes) (c : script)
  : option (rout (bytes * option error) * zrd * bytes * script) :=
  match z_pend z with
  | _ :: _ =>
      if (n <? length (z_pend z))%nat
      then Some (ROk (firstn n (z_pend z), None), mkZ (skipn n (z_pend z)) (z_st z), o, c)
      else Some (ROk (z_pend z, None), mkZ [] (z_st z), o, c)
  | [] =>
      match z_st z with
      | inr e => Some (ROk ([], Some e), z, o, c)
      | inl st =>
          match fuel with
          | O => None
          | S f =>
              match act st with
              | ZByte k =>
                  match orig_read_byte o c with
                  | (ROk b, o', c') => zread f n (mkZ [] (inl (k b))) o' c'
                  | (RErr e, o', c') =>
                      Some (ROk ([], Some (no_eof e)), mkZ [] (inr (no_eof e)), o', c')
                  | (RPanic, o', c') => Some (RPanic, z, o', c')
                  end
              | ZFull m k =>
                  match orig_read_full m o c with
                  | (inr d, o', c') => zread f n (mkZ [] (inl (k d))) o' c'
                  | (inl e, o', c') =>
                      Some (ROk ([], Some (no_eof e)), mkZ [] (inr (no_eof e)), o', c')
                  end
              | ZReady st' => zread f n (mkZ [] (inl st')) o c
              | ZGive d st' =>
                  if (n <? length d)%nat
                  then Some (ROk (firstn n d, None), mkZ (skipn n d) (inl st'), o, c)
                  else Some (ROk (d, None), mkZ [] (inl st'), o, c)
              | ZLast d =>
                  if (n <? length d)%nat
                  then Some (ROk (firstn n d, None), mkZ (skipn n d) (inr EEOF), o, c)
                  else Some (ROk (d, Some EEOF), mkZ [] (inr EEOF), o, c)
              | ZFail e => Some (ROk ([], Some (no_eof e)), mkZ [] (inr (no_eof e)), o, c)
              end
          end
      end
  end.

(** zlib.NewReader / Reset: reads the header (lineproto/reader.go:260-271). *)
Fixpoint zopen (fuel : nat) (st : zstate) (o : bytes) (c : script)
  : option (rout zstate * bytes * script) :=
  match fuel with
  | O => None
  | S f =>
      match act st with
      | ZByte k =>
          match orig_read_byte o c with
          | (ROk b, o', c') => zopen f (k b) o' c'
          | (RErr e, o', c') => Some (RErr (no_eof e), o', c')
          | (RPanic, o', c') => Some (RPanic, o', c')
          end
      | ZFull m k =>
          match orig_read_full m o c with
          | (inr d, o', c') => zopen f (k d) o' c'
          | (inl e, o', c') => Some (RErr (no_eof e), o', c')
          end
      | ZFail e => Some (RErr (no_eof e), o, c)
      | ZReady st' => Some (ROk st', o, c)
      | ZGive _ _ | ZLast _ => Some (ROk st, o, c)
      end
  end.

(** Read on what is below the current bufReader ([r.cur.r.Read]) (lineproto/reader.go:66,95). *)
Definition under_read (fuel n : nat) (r : reader) : option (rout (bytes * option error) * reader) :=
  if rd_zcur r then
    match zread fuel n (rd_z r) (rd_orig r) (rd_conn r) with
    | None => None
    | Some (out, z, o, c) => Some (out, with_z z (with_plain c o r))
    end
  else
    let '(d, e, c') := conn_read n (rd_conn r) in
    Some (ROk (d, e), with_plain c' (rd_orig r) r).

(** Unread buffer of the current bufReader (lineproto/reader.go:104,129). *)
Definition cur_buf (r : reader) : bytes := if rd_zcur r then rd_comp r else rd_orig r.
(** r.off += ..., lineproto/reader.go:107,113 *)
Definition set_cur_buf (b : bytes) (r : reader) : reader :=
  if rd_zcur r then with_comp b r else with_plain (rd_conn r) b r.

(** bufReader.Scan, lineproto/reader.go:98-115: prefix and the "more" flag. *)
Definition scan_buf (delim : byte) (b : bytes) (r : reader) : rout (bytes * bool) * reader :=
  match index_byte delim b with
  | None => (ROk (b, true), set_cur_buf [] r)
  | Some i => (ROk (firstn (S i) b, false), set_cur_buf (skipn (S i) b) r)
  end.

(** bufReader.Scan, lineproto/reader.go:98-115 *)
Definition scan (fuel : nat) (r : reader) : option (rout (bytes * bool) * reader) :=
  match cur_buf r with
  | _ :: _ => Some (scan_buf (rd_delim r) (cur_buf r) r)
  | [] =>
      match under_read fuel read_buf r with
      | None => None
      | Some (RPanic, r') => Some (RPanic, r')
      | Some (RErr e, r') => Some (RErr e, r')
      | Some (ROk ([], Some e), r') => Some (RErr e, r')
      | Some (ROk (d, _), r') => Some (scan_buf (rd_delim r) d r')
      end
  end.

(** Result of ReadLine: a line, or an error with the partial line (nil for some errors)
    (lineproto/reader.go:188-226). *)
Inductive line_out :=
| LLine (l : bytes)
| LErr (partial : option bytes) (e : error)
| LPanic.

(** err == io.EOF, lineproto/reader.go:200,235 *)
Definition is_eof (e : error) : bool := match e with EEOF => true | _ => false end.

(** Loop of ReadLine, lineproto/reader.go:194-225. *)
Fixpoint read_loop (fuel : nat) (w : W) (line : bytes) (r : reader)
  : option (line_out * W * reader) :=
  match fuel with
  | O => None
  | S f =>
      if ((0 <? rd_max r) && (rd_max r <=? Z.of_nat (length line)))%Z%bool
      then Some (LErr None err_exhausted, w, r)
      else
        match scan f r with
        | None => None
        | Some (RPanic, r') => Some (LPanic, w, r')
        | Some (RErr e, r') =>
            if (is_eof e && rd_zlib_on r')%bool
            then read_loop f w line (with_mode false false r')
            else Some (LErr (Some line) e, w, r')
        | Some (ROk (pref, more), r') =>
            let line' := line ++ pref in
            if more then read_loop f w line' r'
            else
              match run_hooks (rd_hooks r') w line' with
              | (w', HPass) => Some (LLine line', w', r')
              | (w', HDrop) => read_loop f w' [] r'
              | (w', HErr e) => Some (LErr None e, w', r')
              end
        end
  end.

(** Reader.ReadLine, lineproto/reader.go:188-226 *)
Definition read_line (fuel : nat) (w : W) (r : reader) : option (line_out * W * reader) :=
  if rd_open r then read_loop fuel w [] r
  else Some (LErr None err_closed, w, r).

(** bufReader.Read on the current reader, lineproto/reader.go:88-96 *)
Definition cur_read (fuel n : nat) (r : reader) : option (rout (bytes * option error) * reader) :=
  match cur_buf r with
  | _ :: _ => Some (ROk (firstn n (cur_buf r), None), set_cur_buf (skipn n (cur_buf r)) r)
  | [] => under_read fuel n r
  end.

(** Reader.Read, lineproto/reader.go:230-249.  Data and error are returned together. *)
Definition reader_read (fuel n : nat) (r : reader) : option (rout (bytes * option error) * reader) :=
  if rd_open r then
    match cur_read fuel n r with
    | Some (ROk (d, Some e), r') =>
        if (is_eof e && rd_zlib_on r')%bool
        then let r'' := with_mode false false r' in
             match d with
             | _ :: _ => Some (ROk (d, None), r'')
             | [] => cur_read fuel n r''
             end
        else Some (ROk (d, Some e), r')
    | x => x
    end
  else Some (ROk ([], Some err_closed), r).

(** Reader.EnableZlib, lineproto/reader.go:252-280 *)
Definition enable_zlib (fuel : nat) (r : reader) : option (rout unit * reader) :=
  if rd_open r then
    if rd_zlib_on r then Some (RErr err_zlib_active, r)
    else
      let r1 := with_mode true (rd_zcur r) r in
      match zopen fuel zinit (rd_orig r1) (rd_conn r1) with
      | None => None
      | Some (RPanic, o, c) => Some (RPanic, with_plain c o r1)
      | Some (RErr e, o, c) => Some (RErr e, with_plain c o r1)
      | Some (ROk st, o, c) =>
          Some (ROk tt, with_mode true true (with_comp [] (with_z (mkZ [] (inl st)) (with_plain c o r1))))
      end
  else Some (RErr err_closed, r).

(** Reader.Binary, lineproto/reader.go:284-289: the LimitedReader's counter int64(sz). *)
Definition binary (sz : N) (r : reader) : rout Z :=
  if rd_open r then ROk (if (sz <? 2 ^ 63)%N then Z.of_N sz else (Z.of_N sz - 2 ^ 64)%Z)
  else RErr err_closed.

(** binaryReader.Read (lineproto/reader.go:295-297) = io.LimitedReader.Read with N = left. *)
Definition binary_read (fuel n : nat) (left : Z) (r : reader)
  : option (rout (bytes * option error) * Z * reader) :=
  if (left <=? 0)%Z then Some (ROk ([], Some EEOF), left, r)
  else
    let n' := if (left <? Z.of_nat n)%Z then Z.to_nat left else n in
    match reader_read fuel n' r with
    | None => None
    | Some (ROk (d, e), r') => Some (ROk (d, e), (left - Z.of_nat (length d))%Z, r')
    | Some (out, r') => Some (out, left, r')
    end.

(** binaryReader.Close (lineproto/reader.go:299-302): io.Copy to ioutil.Discard reads
    8192-byte blocks until io.EOF (nil) or another error. *)
Definition discard_buf : nat := N.to_nat 8192.
(** binaryReader.Close, lineproto/reader.go:299-302 *)
Fixpoint binary_close (fuel : nat) (left : Z) (r : reader) : option (rout (option error) * reader) :=
  match fuel with
  | O => None
  | S f =>
      match binary_read f discard_buf left r with
      | None => None
      | Some (ROk (_, None), left', r') => binary_close f left' r'
      | Some (ROk (_, Some e), _, r') =>
          Some (ROk (if is_eof e then None else Some e), r')
      | Some (RErr e, _, r') => Some (RErr e, r')
      | Some (RPanic, _, r') => Some (RPanic, r')
      end
  end.
End Reader.

Arguments mkReader {W zstate}. Arguments mkZ {zstate}. Arguments z_pend {zstate}. Arguments z_st {zstate}.
Arguments ROk {A}. Arguments RErr {A}. Arguments RPanic {A}.
Arguments rd_delim {W zstate}. Arguments rd_max {W zstate}. Arguments rd_open {W zstate}.
Arguments rd_conn {W zstate}. Arguments rd_orig {W zstate}. Arguments rd_zlib_on {W zstate}.
Arguments rd_zcur {W zstate}. Arguments rd_z {W zstate}. Arguments rd_comp {W zstate}.
Arguments rd_hooks {W zstate}.
Arguments new_reader {W zstate}. Arguments close_reader {W zstate}. Arguments set_max_line {W zstate}.
Arguments on_line {W zstate}. Arguments with_plain {W zstate}. Arguments with_z {W zstate}.
Arguments with_comp {W zstate}. Arguments with_mode {W zstate}. Arguments zread {zstate}.
Arguments zopen {zstate}. Arguments under_read {W zstate}. Arguments cur_buf {W zstate}.
Arguments set_cur_buf {W zstate}. Arguments scan_buf {W zstate}. Arguments scan {W zstate}.
Arguments read_loop {W zstate}. Arguments read_line {W zstate}. Arguments cur_read {W zstate}.
Arguments reader_read {W zstate}. Arguments enable_zlib {W zstate}. Arguments binary {W zstate}.
Arguments binary_read {W zstate}. Arguments binary_close {W zstate}.
