(** Specification of line callbacks and a Timeout callback that call the writer they belong to: a call in a callback is a call as any other. *)
From Verif Require Import Base LineReader LineWriter SpecWriter WriterReentry SpecWriterReentry TimeoutReentry SpecTimeoutReentry BothReentry.

(** A Timeout callback of C149 and line callbacks that call nothing, as callbacks that call the writer. *)
Definition as_verdict (e : option error) : hook_res := match e with Some e => HErr e | None => HPass end.
Fixpoint as_both {W} (p : tprog W) : bprog W :=
  match p with
  | UReturn w e => BReturn w (as_verdict e)
  | UPanic => BPanic
  | UCall w c k => BCall w c (fun a w' => as_both (k a w'))
  | UErr k => BErr (fun e => as_both (k e))
  | UMark on e q => BMark on e (as_both q)
  | USet t q => BSet (match t with Some t => Some (fun w on => as_both (t w on)) | None => None end) (as_both q)
  end.
Definition mute {W} (h : hook W) : W -> bytes -> bprog W := fun w d => let '(w', v) := h w d in BReturn w' v.
(** The writer of C149 with these. *)
Definition widen {W dst} (s : @twriter W dst) : @bowriter W dst :=
  mkBo (match tw_timeout s with Some t => Some (fun w on => as_both (t w on)) | None => None end) (map mute (tw_hooks s)) (tw_rest s).
(** Line callbacks of C146; [w0] is any state, given to methods that run no line callbacks. *)
Fixpoint of_line {W} (w0 : W) (p : wprog W) : bprog W :=
  match p with
  | QReturn w v => BReturn w v
  | QPanic => BPanic
  | QLine w d k => BCall w (CLine d) (fun a w' => of_line w0 (k (snd a) w'))
  | QWrite d k => BCall w0 (CWrite d) (fun a _ => of_line w0 (k a))
  | QFlush k => BCall w0 CFlush (fun a _ => of_line w0 (k (snd a)))
  | QZlib lvl k => BCall w0 (CZlib lvl) (fun a _ => of_line w0 (k (snd a)))
  | QUnzip k => BCall w0 CUnzip (fun a _ => of_line w0 (k (snd a)))
  | QErr k => BErr (fun e => of_line w0 (k e))
  | QHook h q => BHook (fun w d => of_line w0 (h w d)) (of_line w0 q)
  | QClose k => BCall w0 CClose (fun a _ => of_line w0 (k (snd a)))
  end.
(** The writer of C146 without a Timeout callback. *)
Definition untimed {W dst} (w0 : W) (s : @lwriter W dst) : @bowriter W dst := mkBo None (map (fun h w d => of_line w0 (h w d)) (lw_hooks s)) (lw_rest s).

Section Told.
Context {W dst : Type} (dinit : Z -> dst) (dstep : dst -> dop -> dst * list bytes).
(** The writer, and the fields of it without callbacks. *)
Notation bo := (@bowriter W dst).
Notation wr := (writer unit dst).
(** The writer with the callbacks again. *)
Definition again_e (w : W) t hs (r : option (option error * wr)) : option (nat * option error * W * bo) :=
  match r with Some (e, x) => Some (O, e, w, mkBo t hs x) | None => None end.
Definition again_n (w : W) t hs (r : option (nat * option error * wr)) : option (nat * option error * W * bo) :=
  match r with Some (n, e, x) => Some (n, e, w, mkBo t hs x) | None => None end.
(** The error of the outer method is that of its own work. *)
Definition behind (e : option error) (r : option (W * hook_res * bo)) : option (nat * option error * W * bo) :=
  match r with Some (w, _, s) => Some (O, e, w, s) | None => None end.

(** A callback; None: a panic. *)
Inductive bdoes : bprog W -> bo -> option (W * hook_res * bo) -> Prop :=
| bd_return w v s : bdoes (BReturn w v) s (Some (w, v, s))
| bd_panic s : bdoes BPanic s None
| bd_call w c k s n e w' s' o : bcalls w c s (Some (n, e, w', s')) -> bdoes (k (n, e) w') s' o -> bdoes (BCall w c k) s o
| bd_call_panic w c k s : bcalls w c s None -> bdoes (BCall w c k) s None
| bd_err k t hs x o : bdoes (k (wr_err x)) (mkBo t hs x) o -> bdoes (BErr k) (mkBo t hs x) o
| bd_mark on e p t hs x o : bdoes p (mkBo t hs (marked on e x)) o -> bdoes (BMark on e p) (mkBo t hs x) o
| bd_set t' p t hs x o : bdoes p (mkBo t' hs x) o -> bdoes (BSet t' p) (mkBo t hs x) o
| bd_hook h p t hs x o : bdoes p (mkBo t (hs ++ [h]) x) o -> bdoes (BHook h p) (mkBo t hs x) o
(** The line callbacks are asked in order until one does not pass the line. *)
with basked : list (W -> bytes -> bprog W) -> W -> bytes -> bo -> option (W * hook_res * bo) -> Prop :=
| ba_none w d s : basked [] w d s (Some (w, HPass, s))
| ba_pass h hs w d s w1 s1 o : bdoes (h w d) s (Some (w1, HPass, s1)) -> basked hs w1 d s1 o -> basked (h :: hs) w d s o
| ba_stop h hs w d s w1 v s1 : bdoes (h w d) s (Some (w1, v, s1)) -> v <> HPass -> basked (h :: hs) w d s (Some (w1, v, s1))
| ba_panic h hs w d s : bdoes (h w d) s None -> basked (h :: hs) w d s None
(** Timeout(true), the own work of WriteLine or Flush, and Timeout(false) of the callback that is there before this work. *)
with btimed : wop -> W -> bo -> option (nat * option error * W * bo) -> Prop :=
| bt_none o w hs x r : goes dinit dstep o x r -> btimed o w (mkBo None hs x) (again_e w None hs r)
| bt_panic o t w hs x : bdoes (t w true) (mkBo (Some t) hs x) None -> btimed o w (mkBo (Some t) hs x) None
| bt_refused o t w hs x w1 e t1 hs1 x1 : bdoes (t w true) (mkBo (Some t) hs x) (Some (w1, HErr e, mkBo t1 hs1 x1)) ->
    btimed o w (mkBo (Some t) hs x) (Some (O, Some e, w1, mkBo t1 hs1 (dress [] (Some e) x1)))
| bt_work o t w hs x w1 v t1 hs1 x1 : bdoes (t w true) (mkBo (Some t) hs x) (Some (w1, v, mkBo t1 hs1 x1)) -> (forall e, v <> HErr e) -> goes dinit dstep o x1 None ->
    btimed o w (mkBo (Some t) hs x) None
| bt_nil o t w hs x w1 v hs1 x1 e x2 : bdoes (t w true) (mkBo (Some t) hs x) (Some (w1, v, mkBo None hs1 x1)) -> (forall e, v <> HErr e) -> goes dinit dstep o x1 (Some (e, x2)) ->
    btimed o w (mkBo (Some t) hs x) None
| bt_done o t w hs x w1 v t1 hs1 x1 e x2 r : bdoes (t w true) (mkBo (Some t) hs x) (Some (w1, v, mkBo (Some t1) hs1 x1)) -> (forall e, v <> HErr e) -> goes dinit dstep o x1 (Some (e, x2)) ->
    bdoes (t1 w1 false) (mkBo (Some t1) hs1 x2) r -> btimed o w (mkBo (Some t) hs x) (behind e r)
(** The methods. *)
with bcalls : W -> wcall -> bo -> option (nat * option error * W * bo) -> Prop :=
| bc_before w c t hs x e : wr_err x = Some e -> c <> CUnzip -> c <> CClose -> bcalls w c (mkBo t hs x) (Some (O, Some e, w, mkBo t hs x))
| bc_flush w t hs x r : wr_err x = None -> btimed OFlush w (mkBo t hs x) r -> bcalls w CFlush (mkBo t hs x) r
| bc_line d w t hs x w' s' r : wr_err x = None -> basked hs w d (mkBo t hs x) (Some (w', HPass, s')) -> btimed (OLine d) w' s' r -> bcalls w (CLine d) (mkBo t hs x) r
| bc_line_drop d w t hs x w' s' : wr_err x = None -> basked hs w d (mkBo t hs x) (Some (w', HDrop, s')) -> bcalls w (CLine d) (mkBo t hs x) (Some (O, None, w', s'))
| bc_line_error d w t hs x w' e t' hs' x' : wr_err x = None -> basked hs w d (mkBo t hs x) (Some (w', HErr e, mkBo t' hs' x')) ->
    bcalls w (CLine d) (mkBo t hs x) (Some (O, Some e, w', mkBo t' hs' (dress [] (Some e) x')))
| bc_line_panic d w t hs x : wr_err x = None -> basked hs w d (mkBo t hs x) None -> bcalls w (CLine d) (mkBo t hs x) None
| bc_write p w t hs x r : wr_err x = None -> wr_buf x = [] -> sends dstep p x r -> bcalls w (CWrite p) (mkBo t hs x) (again_n w t hs r)
| bc_write_flush p w t hs x n w' t' hs' x' r : wr_err x = None -> wr_buf x <> [] -> btimed OFlush w (mkBo t hs x) (Some (n, None, w', mkBo t' hs' x')) -> sends dstep p x' r ->
    bcalls w (CWrite p) (mkBo t hs x) (again_n w' t' hs' r)
| bc_write_fails p w t hs x n e w' s' : wr_err x = None -> wr_buf x <> [] -> btimed OFlush w (mkBo t hs x) (Some (n, Some e, w', s')) ->
    bcalls w (CWrite p) (mkBo t hs x) (Some (n, Some e, w', s'))
| bc_write_panic p w t hs x : wr_err x = None -> wr_buf x <> [] -> btimed OFlush w (mkBo t hs x) None -> bcalls w (CWrite p) (mkBo t hs x) None
| bc_zlib_on lvl w t hs x : wr_err x = None -> wr_zlib_on x = true -> bcalls w (CZlib lvl) (mkBo t hs x) (Some (O, Some err_zlib_active, w, mkBo t hs x))
| bc_zlib lvl w t hs x n w' t' hs' x' r : wr_err x = None -> wr_zlib_on x = false -> btimed OFlush w (mkBo t hs x) (Some (n, None, w', mkBo t' hs' x')) -> zips dinit dstep lvl x' r ->
    bcalls w (CZlib lvl) (mkBo t hs x) (again_e w' t' hs' r)
| bc_zlib_fails lvl w t hs x n e w' s' : wr_err x = None -> wr_zlib_on x = false -> btimed OFlush w (mkBo t hs x) (Some (n, Some e, w', s')) ->
    bcalls w (CZlib lvl) (mkBo t hs x) (Some (n, Some e, w', s'))
| bc_zlib_panic lvl w t hs x : wr_err x = None -> wr_zlib_on x = false -> btimed OFlush w (mkBo t hs x) None -> bcalls w (CZlib lvl) (mkBo t hs x) None
| bc_unzip w t hs x e y : disable_zlib dstep x = WRet (e, y) -> bcalls w CUnzip (mkBo t hs x) (Some (O, e, w, mkBo t hs y))
| bc_unzip_panic w t hs x : disable_zlib dstep x = WPan -> bcalls w CUnzip (mkBo t hs x) None
| bc_close w t hs x e y : close_writer dstep x = WRet (e, y) -> bcalls w CClose (mkBo t hs x) (Some (O, e, w, mkBo t [] y))
| bc_close_panic w t hs x : close_writer dstep x = WPan -> bcalls w CClose (mkBo t hs x) None.
End Told.
