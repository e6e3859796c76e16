(** Independent specifications for the line writer. *)
From Verif Require Import Base LineReader SpecLine LineWriter.

(** Bytes accepted by the connection. *)
Definition delivered (tr : list event) : bytes :=
  flat_map (fun ev => match ev with EvWrite p n _ => firstn n p | EvTimeout _ _ => [] end) tr.

(** A connection that obeys the io.Writer contract: it accepts everything or reports an error. *)
Definition honest (r : wresp) : Prop := match r with WR n e => e = None -> n = None end.

(** ** Operations on a writer *)
Inductive wop := OLine (d : bytes) | OWrite (p : bytes) | OFlush | OEnable (lvl : Z) | ODisable | OClose.

Section Ops.
Context {W dst : Type} (dinit : Z -> dst) (dstep : dst -> dop -> dst * list bytes).

(** Count (only for Write) and error of one operation. *)
Definition run_op (s : W) (o : wop) (w : writer W dst) : wout (nat * option error * W * writer W dst) :=
  let lift (r : wout (option error * writer W dst)) :=
    match r with WRet (e, w') => WRet (0, e, s, w') | WPan => WPan | WStuck => WStuck end in
  match o with
  | OLine d => match write_line dstep s d w with
               | WRet (e, s', w') => WRet (0, e, s', w') | WPan => WPan | WStuck => WStuck end
  | OWrite p => match write dstep p w with
                | WRet (n, e, w') => WRet (n, e, s, w') | WPan => WPan | WStuck => WStuck end
  | OFlush => lift (flush dstep w)
  | OEnable lvl => lift (enable_zlib_level dinit dstep lvl w)
  | ODisable => lift (disable_zlib dstep w)
  | OClose => lift (close_writer dstep w)
  end.

(** What an operation with result [(n, e)] contributes to the accepted data, given the
    hooks and their state. *)
Inductive accepted (hs : list (hook W)) (s : W) : wop -> nat -> option error -> bytes -> Prop :=
| ac_pass d n s' : verdict hs s d s' HPass -> accepted hs s (OLine d) n None d
| ac_drop d n s' : verdict hs s d s' HDrop -> accepted hs s (OLine d) n None []
| ac_fail d n e : accepted hs s (OLine d) n (Some e) []
| ac_write p n e : accepted hs s (OWrite p) n e (firstn n p)
| ac_flush n e : accepted hs s OFlush n e []
| ac_enable lvl n e : accepted hs s (OEnable lvl) n e []
| ac_disable n e : accepted hs s ODisable n e []
| ac_close n e : accepted hs s OClose n e [].

(** The stream as a sequence of plain and compressed sections with their contents. *)
Inductive section := SPlain (d : bytes) | SZlib (lvl : Z) (d : bytes).
(** The bytes of a section. *)
Definition contents (x : section) : bytes := match x with SPlain d => d | SZlib _ d => d end.
(** More bytes in the current section. *)
Definition extend (x : section) (d : bytes) : section :=
  match x with SPlain a => SPlain (a ++ d) | SZlib l a => SZlib l (a ++ d) end.

(** Complete sections and the current one after an operation. *)
Definition advance (o : wop) (e : option error) (d : bytes) (x : list section * section) : list section * section :=
  match o, e with
  | OEnable lvl, None => (fst x ++ [snd x], SZlib lvl [])
  | ODisable, None => (fst x ++ [snd x], SPlain [])
  | _, _ => (fst x, extend (snd x) d)
  end.

(** [history w0 s0 h acc x s w]: from [w0] with hook state [s0] the operations and results
    [h] led to [w] and [s]; [acc] is the accepted data, [x] its sections. *)
Inductive history (w0 : writer W dst) (s0 : W)
  : list (wop * (nat * option error)) -> bytes -> list section * section -> W -> writer W dst -> Prop :=
| h_nil : history w0 s0 [] [] ([], SPlain []) s0 w0
| h_step h acc x s w o n e s' w' d :
    history w0 s0 h acc x s w -> run_op s o w = WRet (n, e, s', w') -> accepted (wr_hooks w) s o n e d ->
    history w0 s0 (h ++ [(o, (n, e))]) (acc ++ d) (advance o e d x) s' w'.

(** ** What a section looks like on the wire *)
Fixpoint deflate (d : dst) (ops : list dop) : dst * bytes :=
  match ops with
  | [] => (d, [])
  | o :: t => let '(d1, ps) := dstep d o in let '(d2, out) := deflate d1 t in (d2, concat ps ++ out)
  end.
(** The bytes given to the deflater. *)
Definition written (ops : list dop) : bytes :=
  flat_map (fun o => match o with DWrite p => p | _ => [] end) ops.

(** A complete section: the compressed stream is closed. *)
Inductive rendered : section -> bytes -> Prop :=
| rd_plain d : rendered (SPlain d) d
| rd_zlib lvl ops : ~ In DClose ops ->
    rendered (SZlib lvl (written ops)) (snd (deflate (dinit lvl) (ops ++ [DClose]))).
(** A section in progress: [flushed] of its contents was handed to the connection or the compressor. *)
Inductive rendered_open : section -> bytes -> Prop :=
| ro_plain d : rendered_open (SPlain d) d
| ro_zlib lvl ops : ~ In DClose ops ->
    rendered_open (SZlib lvl (written ops)) (snd (deflate (dinit lvl) ops)).
(** The bytes on the wire for all sections. *)
Definition rendered_all (xs : list section) (b : bytes) : Prop :=
  exists bs, Forall2 rendered xs bs /\ b = concat bs.
End Ops.

(** Operations that do not involve compression. *)
Definition plain_op (o : wop) : Prop := match o with OEnable _ | ODisable => False | _ => True end.
(** WriteLine, Write, Flush. *)
Definition data_op (o : wop) : Prop := match o with OLine _ | OWrite _ | OFlush => True | _ => False end.
(** No invalid compression level, no failed Write, no Close.  (Failures of the other
    operations show up in Err(), i.e. [wr_err].) *)
Definition no_failure (r : wop * (nat * option error)) : Prop :=
  match r with
  | (OEnable lvl, _) => (-2 <= lvl <= 9)%Z
  | (OWrite _, (_, e)) => e = None
  | (OClose, _) => False
  | _ => True
  end.

(** A fresh writer with hooks and timeouts. *)
Definition fresh {W dst} (script : list wresp) (size : nat) (hs : list (hook W)) (tmo : option (list (option error)))
  : writer W dst :=
  let w := fold_left (fun w h => on_write h w) hs (new_writer script size) in
  match tmo with Some t => set_timeout t w | None => w end.

(** A prefix. *)
Definition prefix_of (a b : bytes) : Prop := exists t, b = a ++ t.

(** The lines passed to WriteLine, in order. *)
Definition lines_in (h : list (wop * (nat * option error))) : list bytes :=
  flat_map (fun r => match fst r with OLine d => [d] | _ => [] end) h.
(** Calls which write a line or flush. *)
Definition line_op (o : wop) : Prop := match o with OLine _ | OFlush => True | _ => False end.

(** The compressor [dinit], [dstep] and the inflater [act], [zinit] belong together. *)
Definition matching {Z dst} (act : Z -> zaction Z) (zinit : Z) (dinit : BinInt.Z -> dst) (dstep : dst -> dop -> dst * list bytes) : Prop :=
  forall lvl ops, (-2 <= lvl <= 9)%Z -> ~ In DClose ops ->
    inflates act zinit (snd (deflate dstep (dinit lvl) (ops ++ [DClose]))) (written ops).
