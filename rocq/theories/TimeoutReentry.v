(** The line writer of lineproto/writer.go with a Timeout callback that calls the writer it belongs to.

    LineWriter.v has a Timeout callback that only returns an error or nil.  Here it is a program that may call WriteLine, Write, Flush,
    EnableZlibLevel, DisableZlib, Err and Close of the writer and assign to its field Timeout before it returns or panics.

    Simplifications: a panic ends the program (so what deferred calls do then is left out); line callbacks do not call the writer (C146 has
    these). *)
From Verif Require Import Base LineReader LineWriter.

(** A call of a method of the writer that changes it, lineproto/writer.go:67,92,118,141,170,183 *)
Inductive wcall := CLine (d : bytes) | CWrite (p : bytes) | CFlush | CZlib (lvl : Z) | CUnzip | CClose.

(** What a Timeout callback does, lineproto/writer.go:33-34: it returns its new state and an error or nil, panics, or calls a method of the
    writer and goes on depending on the result.  The state of the program at the time of a call is given to the callbacks that run there,
    and comes back.  [UMark]: it does something to the connection (sets a deadline), which is noted as an event.  [USet] assigns to the
    field Timeout, [None] is nil. *)
Inductive tprog (W : Type) :=
| UReturn (w : W) (e : option error)
| UPanic
| UCall (w : W) (c : wcall) (k : nat * option error -> W -> tprog W)
| UErr (k : option error -> tprog W)
| UMark (on : bool) (e : option error) (p : tprog W)
| USet (t : option (W -> bool -> tprog W)) (p : tprog W).
Arguments UReturn {W}. Arguments UPanic {W}. Arguments UCall {W}. Arguments UErr {W}. Arguments UMark {W}. Arguments USet {W}.

Section Timeout.
Context {W dst : Type} (dinit : Z -> dst) (dstep : dst -> dop -> dst * list bytes).
(** Model only: a Timeout callback, lineproto/writer.go:34 *)
Notation tfun := (W -> bool -> tprog W).

(** Writer, lineproto/writer.go:32-47: Timeout, [w.onLine] and the other fields (those two are not used in [tw_rest]) *)
Record twriter := mkTwriter { tw_timeout : option tfun; tw_hooks : list (hook W); tw_rest : writer unit dst }.
(** Model only: the other fields, lineproto/writer.go:40-46 *)
Definition t_with (x : writer unit dst) (s : twriter) : twriter := mkTwriter (tw_timeout s) (tw_hooks s) x.
(** Model only: count and error of a call, the state of the program and the writer behind it (lineproto/writer.go:67-209).  None: out of fuel. *)
Definition t_out : Type := option (wout (nat * option error * W * twriter)).
(** Model only: the result of a method that calls no Timeout callback (lineproto/writer.go:67,118,179) *)
Definition t_plain {A} (c : A -> nat * option error) (w : W) (s : twriter) (r : wout (A * writer unit dst)) : t_out :=
  match r with
  | WRet (a, x) => Some (WRet (c a, w, t_with x s))
  | WPan => Some WPan
  | WStuck => None
  end.

Section Run.
(** The methods as called by the callback, lineproto/writer.go:67-209 *)
Variable again : W -> wcall -> twriter -> t_out.
(** The callback runs, lineproto/writer.go:146,151,196,201 *)
Fixpoint run_tprog (p : tprog W) (s : twriter) : option (wout (W * option error * twriter)) :=
  match p with
  | UReturn w e => Some (WRet (w, e, s))
  | UPanic => Some WPan
  | UCall w c k => match again w c s with
                   | None => None
                   | Some (WRet (a, w', s')) => run_tprog (k a w') s'
                   | Some WPan => Some WPan
                   | Some WStuck => None
                   end
  | UErr k => run_tprog (k (wr_err (tw_rest s))) s
  | UMark on e q => run_tprog q (t_with (with_io (conn_log (EvTimeout on e) (wr_conn (tw_rest s))) (wr_zw (tw_rest s)) (tw_rest s)) s)
  | USet t q => run_tprog q (mkTwriter t (tw_hooks s) (tw_rest s))
  end.
(** [if w.Timeout != nil { err := w.Timeout(true); ...; defer w.Timeout(false) }] around [body], lineproto/writer.go:145-152,195-202.  The
    deferred function is the value of w.Timeout behind Timeout(true); if this is nil, the call of nil panics when [body] has run. *)
Definition t_timed (body : writer unit dst -> wout (option error * writer unit dst)) (w : W) (s : twriter) : t_out :=
  match tw_timeout s with
  | None => t_plain (fun e => (O, e)) w s (body (tw_rest s))
  | Some t =>
      match run_tprog (t w true) s with
      | None => None
      | Some (WRet (w1, Some e, s1)) => Some (WRet (O, Some e, w1, t_with (set_error e (tw_rest s1)) s1))
      | Some (WRet (w1, None, s1)) =>
          match body (tw_rest s1) with
          | WRet (e, x) =>
              match tw_timeout s1 with
              | None => Some WPan
              | Some t' =>
                  match run_tprog (t' w1 false) (t_with x s1) with
                  | None => None
                  | Some (WRet (w2, _, s2)) => Some (WRet (O, e, w2, s2))
                  | Some WPan => Some WPan
                  | Some WStuck => None
                  end
              end
          | WPan => Some WPan
          | WStuck => None
          end
      | Some WPan => Some WPan
      | Some WStuck => None
      end
  end.
(** Behind Timeout(true) in Flush, lineproto/writer.go:153-165: [w.bw] is nil if the callback has closed the writer *)
Definition flush_body (x : writer unit dst) : wout (option error * writer unit dst) :=
  if wr_open x then
    checked (bw_flush dstep x) (fun x1 => if wr_zlib_on x1 then checked (zlib_do dstep DFlush x1) (fun x2 => WRet (None, x2)) else WRet (None, x1))
  else WPan.
(** Behind Timeout(true) in WriteLine, lineproto/writer.go:203-208 *)
Definition line_body (d : bytes) (x : writer unit dst) : wout (option error * writer unit dst) :=
  if wr_open x then checked (bw_write dstep d x) (fun x1 => WRet (None, x1)) else WPan.
(** Flush, lineproto/writer.go:141-166 *)
Definition t_flush (w : W) (s : twriter) : t_out :=
  match wr_err (tw_rest s) with
  | Some e => Some (WRet (O, Some e, w, s))
  | None => t_timed flush_body w s
  end.
(** WriteLine, lineproto/writer.go:183-209 *)
Definition t_line (d : bytes) (w : W) (s : twriter) : t_out :=
  match wr_err (tw_rest s) with
  | Some e => Some (WRet (O, Some e, w, s))
  | None =>
      match run_hooks (tw_hooks s) w d with
      | (w', HErr e) => Some (WRet (O, Some e, w', t_with (set_error e (tw_rest s)) s))
      | (w', HDrop) => Some (WRet (O, None, w', s))
      | (w', HPass) => t_timed (line_body d) w' s
      end
  end.
(** w.cur.Write(p), lineproto/writer.go:179: w.cur is nil if the writer is closed *)
Definition t_cur (p : bytes) (w : W) (s : twriter) : t_out :=
  if wr_open (tw_rest s) then t_plain (fun a => a) w s (cur_write dstep p (tw_rest s)) else Some WPan.
(** Write, lineproto/writer.go:170-180 *)
Definition t_write (p : bytes) (w : W) (s : twriter) : t_out :=
  match wr_err (tw_rest s) with
  | Some e => Some (WRet (O, Some e, w, s))
  | None =>
      match wr_buf (tw_rest s) with
      | [] => t_cur p w s
      | _ => match t_flush w s with
             | Some (WRet (_, None, w', s')) => t_cur p w' s'
             | r => r
             end
      end
  end.
(** EnableZlibLevel behind the Flush, lineproto/writer.go:101-114: [w.bw.Reset] panics if the writer is closed *)
Definition zlib_body (lvl : Z) (x : writer unit dst) : wout (option error * writer unit dst) :=
  let x2 := with_zmode true (wr_zcur x) (wr_zw x) (wr_lvl x) x in
  let fresh := match wr_zw x2 with None => true | Some _ => negb (wr_lvl x2 =? lvl)%Z end in
  if (fresh && negb (level_ok lvl))%bool then WRet (Some err_zlib_level, x2)
  else if wr_open x2 then WRet (None, with_buf [] None (with_zmode true true (Some (dinit lvl, None)) lvl x2))
  else WPan.
(** EnableZlibLevel, lineproto/writer.go:92-115 *)
Definition t_zlib (lvl : Z) (w : W) (s : twriter) : t_out :=
  match wr_err (tw_rest s) with
  | Some e => Some (WRet (O, Some e, w, s))
  | None =>
      if wr_zlib_on (tw_rest s) then Some (WRet (O, Some err_zlib_active, w, s))
      else match t_flush w s with
           | Some (WRet (_, None, w', s')) => t_plain (fun e => (O, e)) w' s' (zlib_body lvl (tw_rest s'))
           | r => r
           end
  end.
End Run.

(** The methods of the writer, lineproto/writer.go:67-209.  DisableZlib and Close call no Timeout callback; Close forgets the line callbacks
    (line 82), but not Timeout. *)
Fixpoint t_call (fuel : nat) (w : W) (c : wcall) (s : twriter) : t_out :=
  match fuel with
  | O => None
  | S f =>
      match c with
      | CLine d => t_line (t_call f) d w s
      | CWrite p => t_write (t_call f) p w s
      | CFlush => t_flush (t_call f) w s
      | CZlib lvl => t_zlib (t_call f) lvl w s
      | CUnzip => t_plain (fun e => (O, e)) w s (disable_zlib dstep (tw_rest s))
      | CClose => t_plain (fun e => (O, e)) w (mkTwriter (tw_timeout s) [] (tw_rest s)) (close_writer dstep (tw_rest s))
      end
  end.
(** Model only: calls one after the other, whatever they return (lineproto/writer.go:67-209) *)
Fixpoint t_calls (fuel : nat) (w : W) (cs : list wcall) (s : twriter) : option (wout (list (nat * option error) * W * twriter)) :=
  match cs with
  | [] => Some (WRet ([], w, s))
  | c :: cs' =>
      match t_call fuel w c s with
      | Some (WRet (a, w', s')) =>
          match t_calls fuel w' cs' s' with
          | Some (WRet (l, w2, s2)) => Some (WRet (a :: l, w2, s2))
          | r => r
          end
      | Some WPan => Some WPan
      | _ => None
      end
  end.
End Timeout.
Arguments mkTwriter {W dst}. Arguments tw_timeout {W dst}. Arguments tw_hooks {W dst}. Arguments tw_rest {W dst}. Arguments t_with {W dst}.
