(** lineproto/writer.go: the line writer.

    Simplifications (all of the file is modelled except as noted):
    - the connection is a finite script of answers to Write, then accepts everything; an
      answer gives the number of bytes accepted and the error, in any combination;
    - the answers of Timeout(true) are a script as well; the result of Timeout(false) is
      ignored by the code;
    - hooks do not call methods of the writer; their state is a world [W];
    - compress/zlib is an arbitrary machine turning each Write, Flush or Close into a list
      of writes to the connection; as in compress/flate the number of bytes accepted by
      the connection is ignored, the first error stops the operation and is sticky, and
      a failing Write reports 0 bytes;
    - bufio.Writer follows the standard library source; NewWriterSize(w, size) does not
      reuse an existing bufio.Writer. *)
From Verif Require Import Base LineReader.

(** lineproto/writer.go:11, lineproto/reader.go:21-22, bufio (io.ErrShortWrite) *)
Definition err_writer_closed : error := EText "lineproto: writer is closed".
(** lineproto/reader.go:22 *)
Definition err_zlib_inactive : error := EText "lineproto: zlib not activate".
(** io.ErrShortWrite of bufio.Writer, lineproto/writer.go:42 *)
Definition err_short_write : error := EText "short write".
(** zlib.NewWriterLevel, lineproto/writer.go:103-106 *)
Definition err_zlib_level : error := EText "zlib: invalid compression level".

(** What happens, in order (lineproto/writer.go:145-151,179,195-201). *)
Inductive event :=
| EvTimeout (on : bool) (e : option error)
| EvWrite (p : bytes) (n : nat) (e : option error).

(** Answer of the connection to one Write: bytes accepted ([None]: all), error
    (lineproto/writer.go:40-42,179). *)
Inductive wresp := WR (n : option nat) (e : option error).

(** Operations of compress/zlib.Writer (lineproto/writer.go:73,129,161). *)
Inductive dop := DWrite (p : bytes) | DFlush | DClose.

(** Result that may be a panic; [WStuck] marks exhausted fuel (never happens)
    (methods of lineproto/writer.go:67-209). *)
Inductive wout (A : Type) := WRet (a : A) | WPan | WStuck.
Arguments WRet {A}. Arguments WPan {A}. Arguments WStuck {A}.

Section Writer.
Variables (W dst : Type) (dinit : Z -> dst) (dstep : dst -> dop -> dst * list bytes).

(** The connection together with the log of everything done to it (lineproto/writer.go:40). *)
Record conn := mkConn { cn_script : list wresp; cn_trace : list event }.

(** Model only: one more event of lineproto/writer.go:145-151,179,195-201 *)
Definition conn_log (ev : event) (c : conn) : conn := mkConn (cn_script c) (cn_trace c ++ [ev]).

(** w.w.Write(p) (lineproto/writer.go:41-42,179). *)
Definition conn_write (p : bytes) (c : conn) : nat * option error * conn :=
  match cn_script c with
  | [] => (length p, None, mkConn [] (cn_trace c ++ [EvWrite p (length p) None]))
  | WR n e :: t =>
      let k := match n with Some k => Nat.min k (length p) | None => length p end in
      (k, e, mkConn t (cn_trace c ++ [EvWrite p k e]))
  end.

(** Successive writes of the compressor, ended by the first error (lineproto/writer.go:73,129,161). *)
Fixpoint conn_writes (ps : list bytes) (c : conn) : option error * conn :=
  match ps with
  | [] => (None, c)
  | p :: t => match conn_write p c with
              | (_, None, c') => conn_writes t c'
              | (_, Some e, c') => (Some e, c')
              end
  end.

(** compress/zlib.Writer with its sticky error (lineproto/writer.go:45). *)
Definition zw : Type := dst * option error.
(** One call of a method of the zlib writer, lineproto/writer.go:73,129,161,179 *)
Definition zw_do (o : dop) (z : zw) (c : conn) : option error * zw * conn :=
  match snd z with
  | Some e => (Some e, z, c)
  | None => let '(d', ps) := dstep (fst z) o in
            let '(e, c') := conn_writes ps c in (e, (d', e), c')
  end.

(** lineproto/writer.go:32-47.  [wr_zcur]: cur (and the writer below bw) is zlibW;
    [wr_buf], [wr_berr]: contents and sticky error of bw; [wr_open]: w, cur, bw not nil. *)
Record writer := mkWriter {
  wr_timeout : bool;               (* Timeout != nil *)
  wr_treplies : list (option error);
  wr_hooks : list (hook W);
  wr_conn : conn;
  wr_open : bool;
  wr_zcur : bool;
  wr_size : nat;
  wr_buf : bytes;
  wr_berr : option error;
  wr_err : option error;
  wr_zlib_on : bool;
  wr_zw : option zw;
  wr_lvl : Z
}.

(** lineproto/writer.go:23-27 and bufio.NewWriterSize. *)
Definition new_writer (script : list wresp) (size : nat) : writer :=
  mkWriter false [] [] (mkConn script []) true false
    (match size with O => N.to_nat 4096 | _ => size end) [] None None false None 0.

(** Assigning the field Timeout, lineproto/writer.go:34 *)
Definition set_timeout (replies : list (option error)) (w : writer) : writer :=
  mkWriter true replies (wr_hooks w) (wr_conn w) (wr_open w) (wr_zcur w) (wr_size w) (wr_buf w)
    (wr_berr w) (wr_err w) (wr_zlib_on w) (wr_zw w) (wr_lvl w).

(** lineproto/writer.go:53-55 *)
Definition on_write (h : hook W) (w : writer) : writer :=
  mkWriter (wr_timeout w) (wr_treplies w) (wr_hooks w ++ [h]) (wr_conn w) (wr_open w) (wr_zcur w) (wr_size w)
    (wr_buf w) (wr_berr w) (wr_err w) (wr_zlib_on w) (wr_zw w) (wr_lvl w).

(** Field updates (lineproto/writer.go:40-47). *)
Definition with_io (c : conn) (z : option zw) (w : writer) : writer :=
  mkWriter (wr_timeout w) (wr_treplies w) (wr_hooks w) c (wr_open w) (wr_zcur w) (wr_size w)
    (wr_buf w) (wr_berr w) (wr_err w) (wr_zlib_on w) z (wr_lvl w).
(** w.bw, lineproto/writer.go:42 *)
Definition with_buf (b : bytes) (e : option error) (w : writer) : writer :=
  mkWriter (wr_timeout w) (wr_treplies w) (wr_hooks w) (wr_conn w) (wr_open w) (wr_zcur w) (wr_size w)
    b e (wr_err w) (wr_zlib_on w) (wr_zw w) (wr_lvl w).
(** Model only: the rest of the answers of w.Timeout, lineproto/writer.go:34,145-151,195-201 *)
Definition with_treplies (t : list (option error)) (w : writer) : writer :=
  mkWriter (wr_timeout w) t (wr_hooks w) (wr_conn w) (wr_open w) (wr_zcur w) (wr_size w)
    (wr_buf w) (wr_berr w) (wr_err w) (wr_zlib_on w) (wr_zw w) (wr_lvl w).
(** lineproto/writer.go:57-59 *)
Definition set_error (e : error) (w : writer) : writer :=
  mkWriter (wr_timeout w) (wr_treplies w) (wr_hooks w) (wr_conn w) (wr_open w) (wr_zcur w) (wr_size w)
    (wr_buf w) (wr_berr w) (Some e) (wr_zlib_on w) (wr_zw w) (wr_lvl w).
(** w.zlibOn, w.cur, w.zlibW, w.zlibLvl: lineproto/writer.go:41,44-46,101-113,134-136 *)
Definition with_zmode (on cur : bool) (z : option zw) (lvl : Z) (w : writer) : writer :=
  mkWriter (wr_timeout w) (wr_treplies w) (wr_hooks w) (wr_conn w) (wr_open w) cur (wr_size w)
    (wr_buf w) (wr_berr w) (wr_err w) on z lvl.

(** w.zlibW.Write/Flush/Close: nil dereference when zlibW is nil (lineproto/writer.go:45). *)
Definition zlib_do (o : dop) (w : writer) : wout (option error * writer) :=
  match wr_zw w with
  | None => WPan
  | Some z => let '(e, z', c') := zw_do o z (wr_conn w) in WRet (e, with_io c' (Some z') w)
  end.

(** w.cur.Write(p) (lineproto/writer.go:41,179). *)
Definition cur_write (p : bytes) (w : writer) : wout (nat * option error * writer) :=
  if wr_zcur w then
    match zlib_do (DWrite p) w with
    | WRet (None, w') => WRet (length p, None, w')
    | WRet (Some e, w') => WRet (0, Some e, w')
    | WPan => WPan
    | WStuck => WStuck
    end
  else let '(n, e, c') := conn_write p (wr_conn w) in WRet (n, e, with_io c' (wr_zw w) w).

(** bufio.Writer.Flush (lineproto/writer.go:68,124,153). *)
Definition bw_flush (w : writer) : wout (option error * writer) :=
  match wr_berr w with
  | Some e => WRet (Some e, w)
  | None =>
      match wr_buf w with
      | [] => WRet (None, w)
      | b => match cur_write b w with
             | WRet (n, e, w') =>
                 let e' := match e with
                           | Some _ => e
                           | None => if (n <? length b)%nat then Some err_short_write else None
                           end in
                 match e' with
                 | Some _ => WRet (e', with_buf (skipn n b) e' w')
                 | None => WRet (None, with_buf [] None w')
                 end
             | WPan => WPan
             | WStuck => WStuck
             end
      end
  end.

(** bufio.Writer.Write (only the error of the result is used) (lineproto/writer.go:203). *)
Fixpoint bw_loop (fuel : nat) (p : bytes) (w : writer) : wout (option error * writer) :=
  match wr_berr w with
  | Some e => WRet (Some e, w)
  | None =>
      let avail := wr_size w - length (wr_buf w) in
      if (length p <=? avail)%nat then WRet (None, with_buf (wr_buf w ++ p) None w)
      else
        match fuel with
        | O => WStuck
        | S f =>
            match wr_buf w with
            | [] => match cur_write p w with
                    | WRet (n, e, w') => bw_loop f (skipn n p) (with_buf [] e w')
                    | WPan => WPan
                    | WStuck => WStuck
                    end
            | b => match bw_flush (with_buf (b ++ firstn avail p) None w) with
                   | WRet (_, w') => bw_loop f (skipn avail p) w'
                   | WPan => WPan
                   | WStuck => WStuck
                   end
            end
        end
  end.
(** bufio.Writer.Write, lineproto/writer.go:203 *)
Definition bw_write (p : bytes) (w : writer) : wout (option error * writer) :=
  bw_loop (3 + 2 * length (cn_script (wr_conn w))) p w.

(** The idiom [if w.Timeout != nil { err := w.Timeout(true); ...; defer w.Timeout(false) }]
    around [body] (lineproto/writer.go:145-152,195-202). *)
Definition timed (body : writer -> wout (option error * writer)) (w : writer) : wout (option error * writer) :=
  if wr_timeout w then
    let e := hd None (wr_treplies w) in
    let w1 := with_treplies (tl (wr_treplies w)) (with_io (conn_log (EvTimeout true e) (wr_conn w)) (wr_zw w) w) in
    match e with
    | Some err => WRet (Some err, set_error err w1)
    | None =>
        match body w1 with
        | WRet (e', w2) => WRet (e', with_io (conn_log (EvTimeout false None) (wr_conn w2)) (wr_zw w2) w2)
        | r => r
        end
    end
  else body w.

(** [err := f(); if err != nil { w.setError(err); return err }]
    (e.g. lineproto/writer.go:124-128,153-157). *)
Definition checked (r : wout (option error * writer)) (k : writer -> wout (option error * writer))
  : wout (option error * writer) :=
  match r with
  | WRet (Some e, w) => WRet (Some e, set_error e w)
  | WRet (None, w) => k w
  | x => x
  end.

(** Writer.Flush, lineproto/writer.go:141-166 *)
Definition flush (w : writer) : wout (option error * writer) :=
  match wr_err w with
  | Some e => WRet (Some e, w)
  | None =>
      timed (fun w1 =>
        checked (bw_flush w1) (fun w2 =>
          if wr_zlib_on w2 then checked (zlib_do DFlush w2) (fun w3 => WRet (None, w3))
          else WRet (None, w2))) w
  end.

(** Writer.Write, lineproto/writer.go:170-180: count and error. *)
Definition write (p : bytes) (w : writer) : wout (nat * option error * writer) :=
  match wr_err w with
  | Some e => WRet (0, Some e, w)
  | None =>
      match wr_buf w with
      | [] => cur_write p w
      | _ => match flush w with
             | WRet (Some e, w') => WRet (0, Some e, w')
             | WRet (None, w') => cur_write p w'
             | WPan => WPan
             | WStuck => WStuck
             end
      end
  end.

(** Writer.WriteLine, lineproto/writer.go:183-209 *)
Definition write_line (st : W) (data : bytes) (w : writer) : wout (option error * W * writer) :=
  match wr_err w with
  | Some e => WRet (Some e, st, w)
  | None =>
      match run_hooks (wr_hooks w) st data with
      | (st', HErr e) => WRet (Some e, st', set_error e w)
      | (st', HDrop) => WRet (None, st', w)
      | (st', HPass) =>
          match timed (fun w1 => checked (bw_write data w1) (fun w2 => WRet (None, w2))) w with
          | WRet (e, w') => WRet (e, st', w')
          | WPan => WPan
          | WStuck => WStuck
          end
      end
  end.

(** zlib.NewWriterLevel: valid levels are HuffmanOnly (-2) to BestCompression (9)
    (lineproto/writer.go:103). *)
Definition level_ok (lvl : Z) : bool := ((-2 <=? lvl) && (lvl <=? 9))%Z%bool.

(** Writer.EnableZlibLevel, lineproto/writer.go:92-115 *)
Definition enable_zlib_level (lvl : Z) (w : writer) : wout (option error * writer) :=
  match wr_err w with
  | Some e => WRet (Some e, w)
  | None =>
      if wr_zlib_on w then WRet (Some err_zlib_active, w)
      else
        match flush w with
        | WRet (None, w1) =>
            let w2 := with_zmode true (wr_zcur w1) (wr_zw w1) (wr_lvl w1) w1 in
            let fresh := match wr_zw w2 with None => true | Some _ => negb (wr_lvl w2 =? lvl)%Z end in
            if (fresh && negb (level_ok lvl))%bool then WRet (Some err_zlib_level, w2)
            else WRet (None, with_buf [] None (with_zmode true true (Some (dinit lvl, None)) lvl w2))
        | r => r
        end
  end.

(** Writer.EnableZlib, lineproto/writer.go:87-89: zlib.DefaultCompression = -1. *)
Definition enable_zlib_w (w : writer) : wout (option error * writer) := enable_zlib_level (-1) w.

(** Writer.DisableZlib, lineproto/writer.go:118-138 *)
Definition disable_zlib (w : writer) : wout (option error * writer) :=
  match wr_err w with
  | Some e => WRet (Some e, w)
  | None =>
      if wr_zlib_on w then
        checked (bw_flush w) (fun w1 =>
        checked (zlib_do DClose w1) (fun w2 =>
          WRet (None, with_buf [] None (with_zmode false false (wr_zw w2) (wr_lvl w2) w2))))
      else WRet (Some err_zlib_inactive, w)
  end.

(** Writer.Close, lineproto/writer.go:67-84: with bw = nil the first line panics. *)
Definition close_writer (w : writer) : wout (option error * writer) :=
  if wr_open w then
    match bw_flush w with
    | WRet (last, w1) =>
        let w2 := match wr_err w1 with None => set_error err_writer_closed w1 | Some _ => w1 end in
        let fin (last : option error) (w3 : writer) : wout (option error * writer) :=
          WRet (last, mkWriter (wr_timeout w3) (wr_treplies w3) [] (wr_conn w3) false false (wr_size w3)
                        [] None (wr_err w3) false (wr_zw w3) (wr_lvl w3)) in
        if wr_zlib_on w2 then
          match zlib_do DClose w2 with
          | WRet (e, w3) =>
              fin (match e with Some _ => e | None => last end) (with_io (wr_conn w3) None w3)
          | WPan => WPan
          | WStuck => WStuck
          end
        else fin last w2
    | r => r
    end
  else WPan.
End Writer.

Arguments mkWriter {W dst}. Arguments new_writer {W dst}. Arguments set_timeout {W dst}. Arguments on_write {W dst}.
Arguments with_io {W dst}. Arguments with_buf {W dst}. Arguments with_treplies {W dst}. Arguments set_error {W dst}.
Arguments with_zmode {W dst}. Arguments zlib_do {W dst}. Arguments cur_write {W dst}. Arguments bw_flush {W dst}.
Arguments bw_loop {W dst}. Arguments bw_write {W dst}. Arguments timed {W dst}. Arguments checked {W dst}.
Arguments flush {W dst}. Arguments write {W dst}. Arguments write_line {W dst}.
Arguments enable_zlib_level {W dst}. Arguments enable_zlib_w {W dst}. Arguments disable_zlib {W dst}.
Arguments close_writer {W dst}. Arguments zw_do {dst}.
Arguments wr_timeout {W dst}. Arguments wr_treplies {W dst}. Arguments wr_hooks {W dst}. Arguments wr_conn {W dst}.
Arguments wr_open {W dst}. Arguments wr_zcur {W dst}. Arguments wr_size {W dst}. Arguments wr_buf {W dst}.
Arguments wr_berr {W dst}. Arguments wr_err {W dst}. Arguments wr_zlib_on {W dst}. Arguments wr_zw {W dst}.
Arguments wr_lvl {W dst}.
