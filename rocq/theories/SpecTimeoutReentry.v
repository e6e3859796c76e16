(** Specification of a Timeout callback that calls the writer it belongs to. *)
From Verif Require Import Base LineReader LineWriter SpecLine SpecWriter SpecWriterReentry TimeoutReentry.

(** The calls. *)
Definition as_call (o : wop) : wcall :=
  match o with OLine d => CLine d | OWrite p => CWrite p | OFlush => CFlush | OEnable lvl => CZlib lvl | ODisable => CUnzip | OClose => CClose end.

(** The callback of C11: it calls nothing, its answers are a list.  The state of the program is that of the line callbacks and the list. *)
Definition answering {A} : A * list (option error) -> bool -> tprog (A * list (option error)) :=
  fun w on => if on then UMark true (hd None (snd w)) (UReturn (fst w, tl (snd w)) (hd None (snd w))) else UMark false None (UReturn w None).
Definition beside {A B} (h : hook A) : hook (A * B) := fun w d => let '(a, v) := h (fst w) d in ((a, snd w), v).
(** The fields of the writer without Timeout and the line callbacks. *)
Definition bare {A dst} (x : writer A dst) : writer unit dst :=
  mkWriter false [] [] (wr_conn x) (wr_open x) (wr_zcur x) (wr_size x) (wr_buf x) (wr_berr x) (wr_err x) (wr_zlib_on x) (wr_zw x) (wr_lvl x).

(** The writer of C11 as one of these. *)
Definition view {A dst} (x : writer A dst) : @twriter (A * list (option error)) dst :=
  mkTwriter (if wr_timeout x then Some answering else None) (map beside (wr_hooks x)) (bare x).

(** A callback that makes the calls [O1] when the timeout is set, and then answers [v], and the calls [O2] when it is removed.  The state
    tells if one of them is running. *)
Fixpoint calling (os : list wop) (v : option error) : tprog bool :=
  match os with
  | [] => UReturn false v
  | o :: os' => UCall true (as_call o) (fun _ _ => calling os' v)
  end.
Definition timing (O1 : list wop) (v : option error) (O2 : list wop) : bool -> bool -> tprog bool :=
  fun busy on => if busy then UReturn true None else if on then calling O1 v else calling O2 None.

Section Spec.
Context {dst : Type} (dinit : Z -> dst) (dstep : dst -> dop -> dst * list bytes).
(** WriteLine or Flush behind Timeout(true), on a writer without callbacks: as if the writer had met no error.  An error it has met stays
    unless there is a new one; on a closed writer it panics (None). *)
Inductive goes (o : wop) (x : writer unit dst) : option (option error * writer unit dst) -> Prop :=
| go_done n u x1 : wr_open x = true -> run_op dinit dstep tt o (dress [] None x) = WRet (n, None, u, x1) -> goes o x (Some (None, dress [] (wr_err x) x1))
| go_error n e u x1 : wr_open x = true -> run_op dinit dstep tt o (dress [] None x) = WRet (n, Some e, u, x1) -> goes o x (Some (Some e, dress [] (Some e) x1))
| go_panic : wr_open x = true -> run_op dinit dstep tt o (dress [] None x) = WPan -> goes o x None
| go_closed : wr_open x = false -> goes o x None.
End Spec.

(** Any callback, told by the methods it calls. *)
Section Told.
Context {W dst : Type} (dinit : Z -> dst) (dstep : dst -> dop -> dst * list bytes).
(** The writer, and the fields of it without callbacks. *)
Notation tw := (@twriter W dst).
Notation wr := (writer unit dst).

(** Nothing in the buffer and no error. *)
Definition emptied (x : wr) : wr := with_buf [] None (dress [] None x).
(** Write behind its Flush: as Write of a writer with nothing in the buffer and no error; what is in the buffer stays there. *)
Inductive sends (p : bytes) (x : wr) : option (nat * option error * wr) -> Prop :=
| se_done n e (y : wr) : wr_open x = true -> write dstep p (emptied x) = WRet (n, e, y) ->
    sends p x (Some (n, e, with_buf (wr_buf x) (wr_berr x) (dress [] (wr_err x) y)))
| se_panic : wr_open x = true -> write dstep p (emptied x) = WPan -> sends p x None
| se_closed : wr_open x = false -> sends p x None.
(** EnableZlibLevel behind its Flush: as on a writer with nothing in the buffer, no error and no compression.  What is in the buffer is lost. *)
Definition ready (x : wr) : wr := with_zmode false (wr_zcur x) (wr_zw x) (wr_lvl x) (emptied x).
Inductive zips (lvl : Z) (x : wr) : option (option error * wr) -> Prop :=
| zi_done (y : wr) : wr_open x = true -> enable_zlib_level dinit dstep lvl (ready x) = WRet (None, y) -> zips lvl x (Some (None, dress [] (wr_err x) y))
| zi_level e (y : wr) : enable_zlib_level dinit dstep lvl (ready x) = WRet (Some e, y) -> zips lvl x (Some (Some e, with_zmode true (wr_zcur x) (wr_zw x) (wr_lvl x) x))
| zi_closed (y : wr) : wr_open x = false -> enable_zlib_level dinit dstep lvl (ready x) = WRet (None, y) -> zips lvl x None.
(** An event on the connection. *)
Definition marked (on : bool) (e : option error) (x : wr) : wr :=
  mkWriter (wr_timeout x) (wr_treplies x) (wr_hooks x) (mkConn (cn_script (wr_conn x)) (cn_trace (wr_conn x) ++ [EvTimeout on e]))
    (wr_open x) (wr_zcur x) (wr_size x) (wr_buf x) (wr_berr x) (wr_err x) (wr_zlib_on x) (wr_zw x) (wr_lvl x).
(** The writer with the callbacks again. *)
Definition put_back (w : W) t hs (r : option (option error * wr)) : option (nat * option error * W * tw) :=
  match r with Some (e, x) => Some (O, e, w, mkTwriter t hs x) | None => None end.
Definition put_back_n (w : W) t hs (r : option (nat * option error * wr)) : option (nat * option error * W * tw) :=
  match r with Some (n, e, x) => Some (n, e, w, mkTwriter t hs x) | None => None end.
Definition ends (e : option error) (r : option (W * option error * tw)) : option (nat * option error * W * tw) :=
  match r with Some (w, _, s) => Some (O, e, w, s) | None => None end.

(** The callback; None: a panic. *)
Inductive udoes : tprog W -> tw -> option (W * option error * tw) -> Prop :=
| ud_return w e s : udoes (UReturn w e) s (Some (w, e, s))
| ud_panic s : udoes UPanic s None
| ud_call w c k s n e w' s' o : ucalls w c s (Some (n, e, w', s')) -> udoes (k (n, e) w') s' o -> udoes (UCall w c k) s o
| ud_call_panic w c k s : ucalls w c s None -> udoes (UCall w c k) s None
| ud_err k t hs x o : udoes (k (wr_err x)) (mkTwriter t hs x) o -> udoes (UErr k) (mkTwriter t hs x) o
| ud_mark on e p t hs x o : udoes p (mkTwriter t hs (marked on e x)) o -> udoes (UMark on e p) (mkTwriter t hs x) o
| ud_set t' p t hs x o : udoes p (mkTwriter t' hs x) o -> udoes (USet t' p) (mkTwriter t hs x) o
(** WriteLine or Flush: Timeout(true), its own work, and Timeout(false) of the callback that is there before its own work. *)
with utimed : wop -> W -> tw -> option (nat * option error * W * tw) -> Prop :=
| ut_none o w hs x r : goes dinit dstep o x r -> utimed o w (mkTwriter None hs x) (put_back w None hs r)
| ut_panic o t w hs x : udoes (t w true) (mkTwriter (Some t) hs x) None -> utimed o w (mkTwriter (Some t) hs x) None
| ut_refused o t w hs x w1 e t1 hs1 x1 : udoes (t w true) (mkTwriter (Some t) hs x) (Some (w1, Some e, mkTwriter t1 hs1 x1)) ->
    utimed o w (mkTwriter (Some t) hs x) (Some (O, Some e, w1, mkTwriter t1 hs1 (dress [] (Some e) x1)))
| ut_work o t w hs x w1 t1 hs1 x1 : udoes (t w true) (mkTwriter (Some t) hs x) (Some (w1, None, mkTwriter t1 hs1 x1)) -> goes dinit dstep o x1 None ->
    utimed o w (mkTwriter (Some t) hs x) None
| ut_nil o t w hs x w1 hs1 x1 e x2 : udoes (t w true) (mkTwriter (Some t) hs x) (Some (w1, None, mkTwriter None hs1 x1)) -> goes dinit dstep o x1 (Some (e, x2)) ->
    utimed o w (mkTwriter (Some t) hs x) None
| ut_done o t w hs x w1 t1 hs1 x1 e x2 r : udoes (t w true) (mkTwriter (Some t) hs x) (Some (w1, None, mkTwriter (Some t1) hs1 x1)) -> goes dinit dstep o x1 (Some (e, x2)) ->
    udoes (t1 w1 false) (mkTwriter (Some t1) hs1 x2) r -> utimed o w (mkTwriter (Some t) hs x) (ends e r)
(** The methods. *)
with ucalls : W -> wcall -> tw -> option (nat * option error * W * tw) -> Prop :=
| uc_before w c t hs x e : wr_err x = Some e -> c <> CUnzip -> c <> CClose -> ucalls w c (mkTwriter t hs x) (Some (O, Some e, w, mkTwriter t hs x))
| uc_flush w t hs x r : wr_err x = None -> utimed OFlush w (mkTwriter t hs x) r -> ucalls w CFlush (mkTwriter t hs x) r
| uc_line d w t hs x w' r : wr_err x = None -> verdict hs w d w' HPass -> utimed (OLine d) w' (mkTwriter t hs x) r -> ucalls w (CLine d) (mkTwriter t hs x) r
| uc_line_drop d w t hs x w' : wr_err x = None -> verdict hs w d w' HDrop -> ucalls w (CLine d) (mkTwriter t hs x) (Some (O, None, w', mkTwriter t hs x))
| uc_line_error d w t hs x w' e : wr_err x = None -> verdict hs w d w' (HErr e) ->
    ucalls w (CLine d) (mkTwriter t hs x) (Some (O, Some e, w', mkTwriter t hs (dress [] (Some e) x)))
| uc_write p w t hs x r : wr_err x = None -> wr_buf x = [] -> sends p x r -> ucalls w (CWrite p) (mkTwriter t hs x) (put_back_n w t hs r)
| uc_write_flush p w t hs x n w' t' hs' x' r : wr_err x = None -> wr_buf x <> [] -> utimed OFlush w (mkTwriter t hs x) (Some (n, None, w', mkTwriter t' hs' x')) -> sends p x' r ->
    ucalls w (CWrite p) (mkTwriter t hs x) (put_back_n w' t' hs' r)
| uc_write_fails p w t hs x n e w' s' : wr_err x = None -> wr_buf x <> [] -> utimed OFlush w (mkTwriter t hs x) (Some (n, Some e, w', s')) ->
    ucalls w (CWrite p) (mkTwriter t hs x) (Some (n, Some e, w', s'))
| uc_write_panic p w t hs x : wr_err x = None -> wr_buf x <> [] -> utimed OFlush w (mkTwriter t hs x) None -> ucalls w (CWrite p) (mkTwriter t hs x) None
| uc_zlib_on lvl w t hs x : wr_err x = None -> wr_zlib_on x = true -> ucalls w (CZlib lvl) (mkTwriter t hs x) (Some (O, Some err_zlib_active, w, mkTwriter t hs x))
| uc_zlib lvl w t hs x n w' t' hs' x' r : wr_err x = None -> wr_zlib_on x = false -> utimed OFlush w (mkTwriter t hs x) (Some (n, None, w', mkTwriter t' hs' x')) -> zips lvl x' r ->
    ucalls w (CZlib lvl) (mkTwriter t hs x) (put_back w' t' hs' r)
| uc_zlib_fails lvl w t hs x n e w' s' : wr_err x = None -> wr_zlib_on x = false -> utimed OFlush w (mkTwriter t hs x) (Some (n, Some e, w', s')) ->
    ucalls w (CZlib lvl) (mkTwriter t hs x) (Some (n, Some e, w', s'))
| uc_zlib_panic lvl w t hs x : wr_err x = None -> wr_zlib_on x = false -> utimed OFlush w (mkTwriter t hs x) None -> ucalls w (CZlib lvl) (mkTwriter t hs x) None
| uc_unzip w t hs x e y : disable_zlib dstep x = WRet (e, y) -> ucalls w CUnzip (mkTwriter t hs x) (Some (O, e, w, mkTwriter t hs y))
| uc_unzip_panic w t hs x : disable_zlib dstep x = WPan -> ucalls w CUnzip (mkTwriter t hs x) None
| uc_close w t hs x e y : close_writer dstep x = WRet (e, y) -> ucalls w CClose (mkTwriter t hs x) (Some (O, e, w, mkTwriter t [] y))
| uc_close_panic w t hs x : close_writer dstep x = WPan -> ucalls w CClose (mkTwriter t hs x) None.
End Told.
