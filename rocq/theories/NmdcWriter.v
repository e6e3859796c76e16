(** nmdc/writer.go: the NMDC message writer on top of the line writer.

    Simplifications:
    - as in LineWriter.v the connection, Timeout and hooks are scripts and functions on a
      world [W]; message hooks may change the message (they get a pointer) but do not call
      methods of the writer; the messages given to one WriteMsg are different objects;
    - what a failing MarshalTo leaves in the buffer is an arbitrary function [junk]. *)
From Verif Require Import Base NmdcText NmdcMessage LineReader LineWriter NmdcReader.

Section NmdcWriter.
Variables (W dst : Type) (dinit : Z -> dst) (dstep : dst -> dop -> dst * list bytes) (junk : msg -> bytes).

(** nmdc/writer.go:25-35.  [nw_mbuf]: contents of mbuf. *)
Record nwriter := mkNwriter {
  nw_line : writer W dst;
  nw_enc : codec;
  nw_msg : list (W * msg -> (W * msg) * hook_res);
  nw_mbuf : bytes
}.

(** NewWriterSize, nmdc/writer.go:13-22; NewWriter has size 0. *)
Definition new_nwriter (script : list wresp) (size : nat) : nwriter := mkNwriter (new_writer script size) None [] [].
(** OnMessage, nmdc/writer.go:41-43 *)
Definition on_message (h : W * msg -> (W * msg) * hook_res) (x : nwriter) : nwriter :=
  mkNwriter (nw_line x) (nw_enc x) (nw_msg x ++ [h]) (nw_mbuf x).
(** SetEncoder, nmdc/writer.go:52-54 (the encoder is loaded once per WriteMsg, 46-49) *)
Definition set_encoder (enc : codec) (x : nwriter) : nwriter := mkNwriter (nw_line x) enc (nw_msg x) (nw_mbuf x).
(** Access to the embedded *lineproto.Writer, nmdc/writer.go:26 *)
Definition with_line (w : writer W dst) (x : nwriter) : nwriter := mkNwriter w (nw_enc x) (nw_msg x) (nw_mbuf x).
(** Changes of w.mbuf, nmdc/writer.go:34 *)
Definition with_mbuf (b : bytes) (x : nwriter) : nwriter := mkNwriter (nw_line x) (nw_enc x) (nw_msg x) b.

(** w.WriteLine, promoted from the embedded writer, nmdc/writer.go:59,79,93 *)
Definition nw_write_line (s : W) (data : bytes) (x : nwriter) : wout (option error * W * nwriter) :=
  match write_line dstep s data (nw_line x) with
  | WRet (e, s', w') => WRet (e, s', with_line w' x)
  | WPan => WPan
  | WStuck => WStuck
  end.

(** WriteKeepAlive, nmdc/writer.go:58-60 *)
Definition write_keep_alive (s : W) (x : nwriter) : wout (option error * W * nwriter) := nw_write_line s [delimiter] x.

(** The loop of WriteMsg, nmdc/writer.go:68-83.  mbuf.Reset() empties the buffer; MarshalTo
    appends to it.  The hook loop, lines 69-73, is that of the reader ([run_msgs] of
    NmdcReader.v): the hooks are asked in order and each sees the message as the one before
    it left it. *)
Fixpoint write_each (enc : codec) (s : W) (ms : list msg) (x : nwriter) : wout (option error * W * nwriter) :=
  match ms with
  | [] => WRet (None, s, x)
  | m :: rest =>
      match run_msgs (nw_msg x) (s, m) with
      | ((s1, _), HErr e) => WRet (Some e, s1, x)
      | ((s1, _), HDrop) => WRet (None, s1, x)
      | ((s1, m1), HPass) =>
          let x0 := with_mbuf [] x in
          match marshal_to enc (nw_mbuf x0) m1 with
          | Panic => WPan
          | Err e => WRet (Some e, s1, with_mbuf (nw_mbuf x0 ++ junk m1) x0)
          | Ok b =>
              match nw_write_line s1 b (with_mbuf b x0) with
              | WRet (None, s2, x2) => write_each enc s2 rest x2
              | r => r
              end
          end
      end
  end.

(** WriteMsg, nmdc/writer.go:63-84 *)
Definition write_msg (s : W) (ms : list msg) (x : nwriter) : wout (option error * W * nwriter) :=
  match wr_err (nw_line x) with
  | Some e => WRet (Some e, s, x)
  | None => write_each (nw_enc x) s ms x
  end.

(** nmdc/msg_hub.go:107 *)
Definition zon_name : bytes := B "ZOn".
(** ZOnLevel, nmdc/writer.go:92-98 *)
Definition zon_level (lvl : Z) (s : W) (x : nwriter) : wout (option error * W * nwriter) :=
  match nw_write_line s (B "$" ++ zon_name ++ B "|") x with
  | WRet (None, s1, x1) =>
      match enable_zlib_level dinit dstep lvl (nw_line x1) with
      | WRet (e, w') => WRet (e, s1, with_line w' x1)
      | WPan => WPan
      | WStuck => WStuck
      end
  | r => r
  end.
(** ZOn, nmdc/writer.go:87-89: zlib.DefaultCompression = -1 *)
Definition zon : W -> nwriter -> wout (option error * W * nwriter) := zon_level (-1).
End NmdcWriter.

Arguments mkNwriter {W dst}. Arguments nw_line {W dst}. Arguments nw_enc {W dst}. Arguments nw_msg {W dst}. Arguments nw_mbuf {W dst}.
Arguments new_nwriter {W dst}. Arguments on_message {W dst}. Arguments set_encoder {W dst}. Arguments with_line {W dst}.
Arguments with_mbuf {W dst}. Arguments nw_write_line {W dst}. Arguments write_keep_alive {W dst}. Arguments write_each {W dst}.
Arguments write_msg {W dst}. Arguments zon_level {W dst}. Arguments zon {W dst}.
