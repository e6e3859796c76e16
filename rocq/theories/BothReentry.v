(** The line writer of lineproto/writer.go where line callbacks and the Timeout callback all call the writer they belong to.

    WriterReentry.v has line callbacks that call the writer, TimeoutReentry.v a Timeout callback that does.  Here each of them is a program
    that may call WriteLine, Write, Flush, EnableZlibLevel, DisableZlib, Err, OnLine and Close of the writer and assign to its field Timeout
    before it returns or panics; so a line callback may be run by the Timeout callback, and the other way round.

    Simplifications: a panic ends the program (so what deferred calls do then is left out); a callback sees the line as a value. *)
From Verif Require Import Base LineReader LineWriter TimeoutReentry.

(** What a callback does, lineproto/writer.go:33-38: it returns its new state and its verdict, panics, or calls a method of the writer and
    goes on depending on the result.  For Timeout [HErr e] is the error e and any other verdict is nil.  [BMark]: it does something to the
    connection (sets a deadline), which is noted as an event.  [BSet] assigns to the field Timeout, [None] is nil.  [BHook] is OnLine. *)
Inductive bprog (W : Type) :=
| BReturn (w : W) (v : hook_res)
| BPanic
| BCall (w : W) (c : wcall) (k : nat * option error -> W -> bprog W)
| BErr (k : option error -> bprog W)
| BMark (on : bool) (e : option error) (p : bprog W)
| BSet (t : option (W -> bool -> bprog W)) (p : bprog W)
| BHook (h : W -> bytes -> bprog W) (p : bprog W).
Arguments BReturn {W}. Arguments BPanic {W}. Arguments BCall {W}. Arguments BErr {W}. Arguments BMark {W}. Arguments BSet {W}. Arguments BHook {W}.

Section Both.
Context {W dst : Type} (dinit : Z -> dst) (dstep : dst -> dop -> dst * list bytes).

(** Writer, lineproto/writer.go:32-47: Timeout, [w.onLine] and the other fields (those two are not used in [bo_rest]) *)
Record bowriter := mkBo { bo_timeout : option (W -> bool -> bprog W); bo_hooks : list (W -> bytes -> bprog W); bo_rest : writer unit dst }.
(** Model only: the other fields, lineproto/writer.go:40-46 *)
Definition b_with (x : writer unit dst) (s : bowriter) : bowriter := mkBo (bo_timeout s) (bo_hooks s) x.
(** Model only: the result of a method (number of bytes, error), lineproto/writer.go:67-209.  None: out of fuel. *)
Definition b_out : Type := option (wout (nat * option error * W * bowriter)).
(** Model only: the result of a method that calls no callback (lineproto/writer.go:67,118,179) *)
Definition b_plain {A} (c : A -> nat * option error) (w : W) (s : bowriter) (r : wout (A * writer unit dst)) : b_out :=
  match r with
  | WRet (a, x) => Some (WRet (c a, w, b_with x s))
  | WPan => Some WPan
  | WStuck => None
  end.

Section Run.
(** The methods as called by a callback, lineproto/writer.go:67-209 *)
Variable again : W -> wcall -> bowriter -> b_out.
(** A callback runs, lineproto/writer.go:146,151,188,196,201.  OnLine appends (line 54). *)
Fixpoint run_bprog (p : bprog W) (s : bowriter) : option (wout (W * hook_res * bowriter)) :=
  match p with
  | BReturn w v => Some (WRet (w, v, s))
  | BPanic => Some WPan
  | BCall w c k => match again w c s with
                   | None => None
                   | Some (WRet (a, w', s')) => run_bprog (k a w') s'
                   | Some WPan => Some WPan
                   | Some WStuck => None
                   end
  | BErr k => run_bprog (k (wr_err (bo_rest s))) s
  | BMark on e q => run_bprog q (b_with (with_io (conn_log (EvTimeout on e) (wr_conn (bo_rest s))) (wr_zw (bo_rest s)) (bo_rest s)) s)
  | BSet t q => run_bprog q (mkBo t (bo_hooks s) (bo_rest s))
  | BHook h q => run_bprog q (mkBo (bo_timeout s) (bo_hooks s ++ [h]) (bo_rest s))
  end.
(** The loop over the line callbacks, lineproto/writer.go:187-194: [range] has evaluated [w.onLine] before the first of them runs *)
Fixpoint run_bprogs (hs : list (W -> bytes -> bprog W)) (w : W) (d : bytes) (s : bowriter) : option (wout (W * hook_res * bowriter)) :=
  match hs with
  | [] => Some (WRet (w, HPass, s))
  | h :: hs' => match run_bprog (h w d) s with
                | Some (WRet (w', HPass, s')) => run_bprogs hs' w' d s'
                | r => r
                end
  end.
(** [if w.Timeout != nil { err := w.Timeout(true); ...; defer w.Timeout(false) }] around [body], lineproto/writer.go:145-152,195-202 *)
Definition b_timed (body : writer unit dst -> wout (option error * writer unit dst)) (w : W) (s : bowriter) : b_out :=
  match bo_timeout s with
  | None => b_plain (fun e => (O, e)) w s (body (bo_rest s))
  | Some t =>
      match run_bprog (t w true) s with
      | None => None
      | Some (WRet (w1, HErr e, s1)) => Some (WRet (O, Some e, w1, b_with (set_error e (bo_rest s1)) s1))
      | Some (WRet (w1, _, s1)) =>
          match body (bo_rest s1) with
          | WRet (e, x) =>
              match bo_timeout s1 with
              | None => Some WPan
              | Some t' =>
                  match run_bprog (t' w1 false) (b_with x s1) with
                  | None => None
                  | Some (WRet (w2, _, s2)) => Some (WRet (O, e, w2, s2))
                  | Some WPan => Some WPan
                  | Some WStuck => None
                  end
              end
          | WPan => Some WPan
          | WStuck => None
          end
      | Some WPan => Some WPan
      | Some WStuck => None
      end
  end.
(** Flush, lineproto/writer.go:141-166 *)
Definition b_flush (w : W) (s : bowriter) : b_out :=
  match wr_err (bo_rest s) with
  | Some e => Some (WRet (O, Some e, w, s))
  | None => b_timed (flush_body dstep) w s
  end.
(** WriteLine, lineproto/writer.go:183-209: behind the line callbacks [w.err] is not looked at again *)
Definition b_line (d : bytes) (w : W) (s : bowriter) : b_out :=
  match wr_err (bo_rest s) with
  | Some e => Some (WRet (O, Some e, w, s))
  | None =>
      match run_bprogs (bo_hooks s) w d s with
      | None => None
      | Some (WRet (w', HErr e, s')) => Some (WRet (O, Some e, w', b_with (set_error e (bo_rest s')) s'))
      | Some (WRet (w', HDrop, s')) => Some (WRet (O, None, w', s'))
      | Some (WRet (w', HPass, s')) => b_timed (line_body dstep d) w' s'
      | Some WPan => Some WPan
      | Some WStuck => None
      end
  end.
(** w.cur.Write(p), lineproto/writer.go:179: w.cur is nil if the writer is closed *)
Definition b_cur (p : bytes) (w : W) (s : bowriter) : b_out :=
  if wr_open (bo_rest s) then b_plain (fun a => a) w s (cur_write dstep p (bo_rest s)) else Some WPan.
(** Write, lineproto/writer.go:170-180 *)
Definition b_write (p : bytes) (w : W) (s : bowriter) : b_out :=
  match wr_err (bo_rest s) with
  | Some e => Some (WRet (O, Some e, w, s))
  | None =>
      match wr_buf (bo_rest s) with
      | [] => b_cur p w s
      | _ => match b_flush w s with
             | Some (WRet (_, None, w', s')) => b_cur p w' s'
             | r => r
             end
      end
  end.
(** EnableZlibLevel, lineproto/writer.go:92-115 *)
Definition b_zlib (lvl : Z) (w : W) (s : bowriter) : b_out :=
  match wr_err (bo_rest s) with
  | Some e => Some (WRet (O, Some e, w, s))
  | None =>
      if wr_zlib_on (bo_rest s) then Some (WRet (O, Some err_zlib_active, w, s))
      else match b_flush w s with
           | Some (WRet (_, None, w', s')) => b_plain (fun e => (O, e)) w' s' (zlib_body dinit lvl (bo_rest s'))
           | r => r
           end
  end.
End Run.

(** The methods of the writer, lineproto/writer.go:67-209.  DisableZlib and Close call no callback; Close forgets the line callbacks
    (line 82), but not Timeout. *)
Fixpoint b_call (fuel : nat) (w : W) (c : wcall) (s : bowriter) : b_out :=
  match fuel with
  | O => None
  | S f =>
      match c with
      | CLine d => b_line (b_call f) d w s
      | CWrite p => b_write (b_call f) p w s
      | CFlush => b_flush (b_call f) w s
      | CZlib lvl => b_zlib (b_call f) lvl w s
      | CUnzip => b_plain (fun e => (O, e)) w s (disable_zlib dstep (bo_rest s))
      | CClose => b_plain (fun e => (O, e)) w (mkBo (bo_timeout s) [] (bo_rest s)) (close_writer dstep (bo_rest s))
      end
  end.
End Both.
Arguments mkBo {W dst}. Arguments bo_timeout {W dst}. Arguments bo_hooks {W dst}. Arguments bo_rest {W dst}. Arguments b_with {W dst}.
