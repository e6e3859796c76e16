(** Specification of line callbacks of the writer that call the writer they belong to: a call in a callback has the effect
    it has between two calls of WriteLine. *)
From Verif Require Import Base LineReader LineWriter SpecWriter WriterReentry.

(** The writer with other callbacks and another error. *)
Definition dress {U W dst} (hs : list (hook W)) (e : option error) (x : writer U dst) : writer W dst :=
  mkWriter (wr_timeout x) (wr_treplies x) hs (wr_conn x) (wr_open x) (wr_zcur x) (wr_size x) (wr_buf x) (wr_berr x) e (wr_zlib_on x) (wr_zw x) (wr_lvl x).

Section Spec.
Context {W dst : Type} (dinit : Z -> dst) (dstep : dst -> dop -> dst * list bytes).
(** The writer. *)
Notation lw := (@lwriter W dst).
(** The writer without its callbacks. *)
Notation wr := (writer unit dst).

(** A line behind the callbacks: it is written as by a writer that has no callbacks and has met no error.  An error that a
    callback has met does not stop this, and stays unless there is a new one. *)
Inductive puts (d : bytes) (x : wr) : option (option error * wr) -> Prop :=
| pu_done x1 : wr_open x = true -> write_line dstep tt d (dress [] None x) = WRet (None, tt, x1) ->
    puts d x (Some (None, dress (wr_hooks x) (wr_err x) x1))
| pu_error e x1 : wr_open x = true -> write_line dstep tt d (dress [] None x) = WRet (Some e, tt, x1) ->
    puts d x (Some (Some e, dress (wr_hooks x) (Some e) x1))
| pu_panic : wr_open x = true -> write_line dstep tt d (dress [] None x) = WPan -> puts d x None
(** On a closed writer it panics, *)
| pu_closed : wr_open x = false -> (wr_timeout x = true -> hd None (wr_treplies x) = None) -> puts d x None
(** if Timeout does not refuse first. *)
| pu_refused e : wr_open x = false -> wr_timeout x = true -> hd None (wr_treplies x) = Some e ->
    puts d x (Some (Some e, with_treplies (tl (wr_treplies x))
      (mkWriter true (wr_treplies x) (wr_hooks x) (mkConn (cn_script (wr_conn x)) (cn_trace (wr_conn x) ++ [EvTimeout true (Some e)]))
         false (wr_zcur x) (wr_size x) (wr_buf x) (wr_berr x) (Some e) (wr_zlib_on x) (wr_zw x) (wr_lvl x)))).

(** A callback, told by the methods it calls; None: a panic. *)
Inductive wdoes : wprog W -> lw -> option (W * hook_res * lw) -> Prop :=
| wd_return w v s : wdoes (QReturn w v) s (Some (w, v, s))
| wd_panic s : wdoes QPanic s None
| wd_line w d k s e w' s' o : wwrites w d s (Some (e, w', s')) -> wdoes (k e w') s' o -> wdoes (QLine w d k) s o
| wd_line_panic w d k s : wwrites w d s None -> wdoes (QLine w d k) s None
| wd_write d k hs x a x' o : write dstep d x = WRet (a, x') -> wdoes (k a) (mkLwriter hs x') o -> wdoes (QWrite d k) (mkLwriter hs x) o
| wd_write_panic d k hs x : write dstep d x = WPan -> wdoes (QWrite d k) (mkLwriter hs x) None
| wd_flush k hs x a x' o : flush dstep x = WRet (a, x') -> wdoes (k a) (mkLwriter hs x') o -> wdoes (QFlush k) (mkLwriter hs x) o
| wd_flush_panic k hs x : flush dstep x = WPan -> wdoes (QFlush k) (mkLwriter hs x) None
| wd_zlib lvl k hs x a x' o : enable_zlib_level dinit dstep lvl x = WRet (a, x') -> wdoes (k a) (mkLwriter hs x') o -> wdoes (QZlib lvl k) (mkLwriter hs x) o
| wd_zlib_panic lvl k hs x : enable_zlib_level dinit dstep lvl x = WPan -> wdoes (QZlib lvl k) (mkLwriter hs x) None
| wd_unzip k hs x a x' o : disable_zlib dstep x = WRet (a, x') -> wdoes (k a) (mkLwriter hs x') o -> wdoes (QUnzip k) (mkLwriter hs x) o
| wd_unzip_panic k hs x : disable_zlib dstep x = WPan -> wdoes (QUnzip k) (mkLwriter hs x) None
| wd_err k hs x o : wdoes (k (wr_err x)) (mkLwriter hs x) o -> wdoes (QErr k) (mkLwriter hs x) o
| wd_hook h q hs x o : wdoes q (mkLwriter (hs ++ [h]) x) o -> wdoes (QHook h q) (mkLwriter hs x) o
| wd_close k hs x a x' o : close_writer dstep x = WRet (a, x') -> wdoes (k a) (mkLwriter [] x') o -> wdoes (QClose k) (mkLwriter hs x) o
| wd_close_panic k hs x : close_writer dstep x = WPan -> wdoes (QClose k) (mkLwriter hs x) None
(** The callbacks are asked in order until one does not pass the line. *)
with wasked : list (W -> bytes -> wprog W) -> W -> bytes -> lw -> option (W * hook_res * lw) -> Prop :=
| wa_none w d s : wasked [] w d s (Some (w, HPass, s))
| wa_pass h hs w d s w1 s1 o : wdoes (h w d) s (Some (w1, HPass, s1)) -> wasked hs w1 d s1 o -> wasked (h :: hs) w d s o
| wa_stop h hs w d s w1 v s1 : wdoes (h w d) s (Some (w1, v, s1)) -> v <> HPass -> wasked (h :: hs) w d s (Some (w1, v, s1))
| wa_panic h hs w d s : wdoes (h w d) s None -> wasked (h :: hs) w d s None
(** WriteLine asks the callbacks that the writer has when it is called. *)
with wwrites : W -> bytes -> lw -> option (option error * W * lw) -> Prop :=
| ww_before w d hs x e : wr_err x = Some e -> wwrites w d (mkLwriter hs x) (Some (Some e, w, mkLwriter hs x))
| ww_pass w d hs x w' hs' x' e x2 : wr_err x = None -> wasked hs w d (mkLwriter hs x) (Some (w', HPass, mkLwriter hs' x')) ->
    puts d x' (Some (e, x2)) -> wwrites w d (mkLwriter hs x) (Some (e, w', mkLwriter hs' x2))
| ww_pass_panic w d hs x w' hs' x' : wr_err x = None -> wasked hs w d (mkLwriter hs x) (Some (w', HPass, mkLwriter hs' x')) ->
    puts d x' None -> wwrites w d (mkLwriter hs x) None
| ww_drop w d hs x w' s' : wr_err x = None -> wasked hs w d (mkLwriter hs x) (Some (w', HDrop, s')) -> wwrites w d (mkLwriter hs x) (Some (None, w', s'))
| ww_error w d hs x w' e hs' x' : wr_err x = None -> wasked hs w d (mkLwriter hs x) (Some (w', HErr e, mkLwriter hs' x')) ->
    wwrites w d (mkLwriter hs x) (Some (Some e, w', mkLwriter hs' (dress (wr_hooks x') (Some e) x')))
| ww_panic w d hs x : wr_err x = None -> wasked hs w d (mkLwriter hs x) None -> wwrites w d (mkLwriter hs x) None.

(** A callback that calls nothing. *)
Definition quiet (h : hook W) : W -> bytes -> wprog W := fun w d => let '(w', v) := h w d in QReturn w' v.

(** Calls one after the other, whatever they return. *)
Fixpoint makes (os : list wop) (x : wr) : wout wr :=
  match os with
  | [] => WRet x
  | o :: os' => match run_op dinit dstep tt o x with
                | WRet (_, _, _, x') => makes os' x'
                | WPan => WPan
                | WStuck => WStuck
                end
  end.
End Spec.

(** The same calls in a callback.  The state tells if one of them is running: lines written by the callback pass it. *)
Fixpoint scripted (os : list wop) (v : hook_res) : wprog bool :=
  match os with
  | [] => QReturn false v
  | OLine d :: os' => QLine true d (fun _ _ => scripted os' v)
  | OWrite p :: os' => QWrite p (fun _ => scripted os' v)
  | OFlush :: os' => QFlush (fun _ => scripted os' v)
  | OEnable lvl :: os' => QZlib lvl (fun _ => scripted os' v)
  | ODisable :: os' => QUnzip (fun _ => scripted os' v)
  | OClose :: os' => QClose (fun _ => scripted os' v)
  end.
Definition script (os : bytes -> list wop) (v : bytes -> hook_res) : bool -> bytes -> wprog bool :=
  fun busy d => if busy then QReturn true HPass else scripted (os d) (v d).
(** Close is among the calls. *)
Definition closes (os : list wop) : bool := existsb (fun o => match o with OClose => true | _ => false end) os.
(** WriteLine for one line after the other until one fails. *)
Fixpoint lines_until {dst} (dstep : dst -> dop -> dst * list bytes) (ds : list bytes) (x : writer unit dst) : wout (option error * writer unit dst) :=
  match ds with
  | [] => WRet (None, x)
  | d :: ds' => match write_line dstep tt d x with
                | WRet (None, _, x') => lines_until dstep ds' x'
                | WRet (Some e, _, x') => WRet (Some e, x')
                | WPan => WPan
                | WStuck => WStuck
                end
  end.
(** A callback that writes other lines before each line, and gives up at the first error. *)
Fixpoint before_it (ds : list bytes) : wprog bool :=
  match ds with
  | [] => QReturn false HPass
  | d :: ds' => QLine true d (fun e _ => match e with None => before_it ds' | Some e => QReturn false (HErr e) end)
  end.
Definition inserting (pre : bytes -> list bytes) : bool -> bytes -> wprog bool :=
  fun busy d => if busy then QReturn true HPass else before_it (pre d).
