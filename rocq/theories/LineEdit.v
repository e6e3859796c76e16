(** lineproto/writer.go: line callbacks that write to the line they are given.

    The callbacks of OnLine get the slice given to WriteLine itself, so they can change its
    bytes (not its length) for the callbacks after them, for the connection and for the
    caller.  LineWriter.v has callbacks that only look; here is WriteLine for all of them.

    Simplifications: as in LineWriter.v, callbacks do not call methods of the writer; they do
    not keep the slice to write to it after they have returned. *)
From Verif Require Import Base LineReader LineWriter.

(** A function of onLine, lineproto/writer.go:38,53: given its environment and the bytes of
    the slice it returns what it has written over them, from the start of the slice. *)
Definition edit_hook (W : Type) : Type := W -> bytes -> (W * bytes) * hook_res.

(** Bytes written over a slice, which keeps its length (lineproto/writer.go:188) *)
Definition write_over (data new : bytes) : bytes := firstn (length data) new ++ skipn (length new) data.

(** The hook loop, lineproto/writer.go:187-194 *)
Fixpoint run_edits {W} (hs : list (edit_hook W)) (s : W) (data : bytes) : (W * bytes) * hook_res :=
  match hs with
  | [] => ((s, data), HPass)
  | h :: t => match h s data with
              | ((s1, new), HPass) => run_edits t s1 (write_over data new)
              | ((s1, new), r) => ((s1, write_over data new), r)
              end
  end.

Section Edit.
Context {W dst : Type} (dinit : Z -> dst) (dstep : dst -> dop -> dst * list bytes).

(** Writer.WriteLine, lineproto/writer.go:183-209, of a writer whose onLine is [hs] (the field
    [wr_hooks] is not used): the error, the callbacks' environment, the caller's slice. *)
Definition edit_line (hs : list (edit_hook W)) (s : W) (data : bytes) (w : writer W dst)
  : wout (option error * W * bytes * writer W dst) :=
  match wr_err w with
  | Some e => WRet (Some e, s, data, w)
  | None =>
      match run_edits hs s data with
      | ((s1, d1), HErr e) => WRet (Some e, s1, d1, set_error e w)
      | ((s1, d1), HDrop) => WRet (None, s1, d1, w)
      | ((s1, d1), HPass) =>
          match timed (fun w1 => checked (bw_write dstep d1 w1) (fun w2 => WRet (None, w2))) w with
          | WRet (e, w') => WRet (e, s1, d1, w')
          | WPan => WPan
          | WStuck => WStuck
          end
      end
  end.

(** A caller with some slices: WriteLine of one of them (lineproto/writer.go:183), Flush
    (lineproto/writer.go:141), or filling one of them (model only: done by the caller of
    lineproto/writer.go:183). *)
Inductive eop := ELine (i : nat) | EFlush | EFill (i : nat) (d : bytes).

(** The slices of the caller after one of them got new bytes, lineproto/writer.go:183 *)
Fixpoint put_slice (i : nat) (d : bytes) (mem : list bytes) {struct mem} : list bytes :=
  match mem, i with
  | [], _ => []
  | _ :: t, O => d :: t
  | x :: t, S j => x :: put_slice j d t
  end.

(** One of these steps, lineproto/writer.go:141-166,183-209 *)
Definition edit_call (hs : list (edit_hook W)) (s : W) (mem : list bytes) (o : eop) (w : writer W dst)
  : wout (option error * W * list bytes * writer W dst) :=
  match o with
  | ELine i => match edit_line hs s (nth i mem []) w with
               | WRet (e, s1, d, w1) => WRet (e, s1, put_slice i d mem, w1)
               | WPan => WPan
               | WStuck => WStuck
               end
  | EFlush => match flush dstep w with
              | WRet (e, w1) => WRet (e, s, mem, w1)
              | WPan => WPan
              | WStuck => WStuck
              end
  | EFill i d => WRet (None, s, put_slice i d mem, w)
  end.

(** Steps one after another, lineproto/writer.go:141-166,183-209 *)
Inductive edit_calls (hs : list (edit_hook W)) : W -> list bytes -> writer W dst -> list (eop * option error) -> W -> list bytes -> writer W dst -> Prop :=
| ec_nil s mem w : edit_calls hs s mem w [] s mem w
| ec_cons s mem w o e s1 mem1 w1 h s2 mem2 w2 : edit_call hs s mem o w = WRet (e, s1, mem1, w1) ->
    edit_calls hs s1 mem1 w1 h s2 mem2 w2 -> edit_calls hs s mem w ((o, e) :: h) s2 mem2 w2.
End Edit.
