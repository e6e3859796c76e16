(** The line writer of lineproto/writer.go with line callbacks that call the writer they belong to.

    LineWriter.v has callbacks that only change the state of the program.  Here a callback is a program that may
    call WriteLine, Write, Flush, EnableZlibLevel, DisableZlib, Err, OnLine and Close of the writer before it
    returns or panics.  WriteLine in a callback runs the callbacks again, for the other line.

    Simplifications: a panic ends the program (no callback recovers from it); the Timeout callback does not call the
    writer; a callback sees the line as a value (LineEdit.v has callbacks that change it). *)
From Verif Require Import Base LineReader LineWriter.

(** What a line callback does, lineproto/writer.go:36-38,187-194: it returns its new state and its verdict, panics,
    or calls a method of the writer and goes on depending on the result.  For WriteLine (line 183) the state of the
    program at this time is given to the callbacks that it runs, and comes back. *)
Inductive wprog (W : Type) :=
| QReturn (w : W) (v : hook_res)
| QPanic
| QLine (w : W) (p : bytes) (k : option error -> W -> wprog W)
| QWrite (p : bytes) (k : nat * option error -> wprog W)
| QFlush (k : option error -> wprog W)
| QZlib (lvl : Z) (k : option error -> wprog W)
| QUnzip (k : option error -> wprog W)
| QErr (k : option error -> wprog W)
| QHook (h : W -> bytes -> wprog W) (p : wprog W)
| QClose (k : option error -> wprog W).
Arguments QReturn {W}. Arguments QPanic {W}. Arguments QLine {W}. Arguments QWrite {W}. Arguments QFlush {W}. Arguments QZlib {W}.
Arguments QUnzip {W}. Arguments QErr {W}. Arguments QHook {W}. Arguments QClose {W}.

Section Reentry.
Context {W dst : Type} (dinit : Z -> dst) (dstep : dst -> dop -> dst * list bytes).
(** Model only: a callback, lineproto/writer.go:38 *)
Notation whook := (W -> bytes -> wprog W).

(** Writer, lineproto/writer.go:32-47: [w.onLine] and the other fields (the list of callbacks of [lw_rest] is not used) *)
Record lwriter := mkLwriter { lw_hooks : list whook; lw_rest : writer unit dst }.

(** Model only: the writer after a call, lineproto/writer.go:67-209.  None: out of fuel. *)
Definition w_after {A B} (s : lwriter) (r : wout (A * writer unit dst)) (k : A -> lwriter -> option (wout B)) : option (wout B) :=
  match r with
  | WRet (a, x) => k a (mkLwriter (lw_hooks s) x)
  | WPan => Some WPan
  | WStuck => None
  end.

Section Run.
(** WriteLine as called by a callback, lineproto/writer.go:183 *)
Variable again : W -> bytes -> lwriter -> option (wout (option error * W * lwriter)).
(** A callback runs, lineproto/writer.go:188.  OnLine appends (line 54), Close forgets all callbacks (line 82). *)
Fixpoint run_wprog (p : wprog W) (s : lwriter) : option (wout (W * hook_res * lwriter)) :=
  match p with
  | QReturn w v => Some (WRet (w, v, s))
  | QPanic => Some WPan
  | QLine w d k => match again w d s with
                   | None => None
                   | Some (WRet (e, w', s')) => run_wprog (k e w') s'
                   | Some WPan => Some WPan
                   | Some WStuck => None
                   end
  | QWrite d k => w_after s (write dstep d (lw_rest s)) (fun a s' => run_wprog (k a) s')
  | QFlush k => w_after s (flush dstep (lw_rest s)) (fun a s' => run_wprog (k a) s')
  | QZlib lvl k => w_after s (enable_zlib_level dinit dstep lvl (lw_rest s)) (fun a s' => run_wprog (k a) s')
  | QUnzip k => w_after s (disable_zlib dstep (lw_rest s)) (fun a s' => run_wprog (k a) s')
  | QErr k => run_wprog (k (wr_err (lw_rest s))) s
  | QHook h q => run_wprog q (mkLwriter (lw_hooks s ++ [h]) (lw_rest s))
  | QClose k => w_after (mkLwriter [] (lw_rest s)) (close_writer dstep (lw_rest s)) (fun a s' => run_wprog (k a) s')
  end.
(** The loop over the callbacks, lineproto/writer.go:187-194: [range] has evaluated [w.onLine] before the first of them runs *)
Fixpoint run_wprogs (hs : list whook) (w : W) (d : bytes) (s : lwriter) : option (wout (W * hook_res * lwriter)) :=
  match hs with
  | [] => Some (WRet (w, HPass, s))
  | h :: hs' => match run_wprog (h w d) s with
                | Some (WRet (w', HPass, s')) => run_wprogs hs' w' d s'
                | x => x
                end
  end.
End Run.

(** Behind the callbacks, lineproto/writer.go:195-208: [w.err] is not looked at again, and [w.bw] is nil if a callback has
    closed the writer *)
Definition put_line (d : bytes) (x : writer unit dst) : wout (option error * writer unit dst) :=
  timed (fun w1 => if wr_open w1 then checked (bw_write dstep d w1) (fun w2 => WRet (None, w2)) else WPan) x.

(** Writer.WriteLine, lineproto/writer.go:183-209.  None: out of fuel. *)
Fixpoint re_write (fuel : nat) (w : W) (d : bytes) (s : lwriter) : option (wout (option error * W * lwriter)) :=
  match fuel with
  | O => None
  | S f =>
      match wr_err (lw_rest s) with
      | Some e => Some (WRet (Some e, w, s))
      | None =>
          match run_wprogs (re_write f) (lw_hooks s) w d s with
          | None => None
          | Some (WRet (w', HErr e, s')) => Some (WRet (Some e, w', mkLwriter (lw_hooks s') (set_error e (lw_rest s'))))
          | Some (WRet (w', HDrop, s')) => Some (WRet (None, w', s'))
          | Some (WRet (w', HPass, s')) => w_after s' (put_line d (lw_rest s')) (fun e s2 => Some (WRet (e, w', s2)))
          | Some WPan => Some WPan
          | Some WStuck => None
          end
      end
  end.

(** Model only: WriteLine for one line after the other until one fails (lineproto/writer.go:183) *)
Fixpoint re_writes (fuel : nat) (w : W) (ds : list bytes) (s : lwriter) : option (wout (option error * W * lwriter)) :=
  match ds with
  | [] => Some (WRet (None, w, s))
  | d :: ds' => match re_write fuel w d s with
                | Some (WRet (None, w', s')) => re_writes fuel w' ds' s'
                | x => x
                end
  end.
End Reentry.
Arguments mkLwriter {W dst}. Arguments lw_hooks {W dst}. Arguments lw_rest {W dst}. Arguments put_line {dst}.
