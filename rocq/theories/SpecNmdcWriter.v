(** Independent specification of the NMDC message writer: which lines a sequence of calls
    is supposed to write. *)
From Verif Require Import Base NmdcText NmdcMessage LineReader LineWriter SpecWriter NmdcWriter.

(** What a list of message hooks says about a message, and what they leave of it: they are
    asked in order, each about what the one before has left, until one does not pass it. *)
Inductive mverdict {W} : list (W * msg -> (W * msg) * hook_res) -> W -> msg -> W -> msg -> hook_res -> Prop :=
| mv_none w m : mverdict [] w m w m HPass
| mv_pass h hs w m w1 m1 w2 m2 v : h (w, m) = ((w1, m1), HPass) -> mverdict hs w1 m1 w2 m2 v -> mverdict (h :: hs) w m w2 m2 v
| mv_stop h hs w m w1 m1 v : h (w, m) = ((w1, m1), v) -> v <> HPass -> mverdict (h :: hs) w m w1 m1 v.

(** The lines written by one WriteMsg on a working connection, and its result.  The call
    ends with the first message that is not written; messages are written as the hooks have
    left them; in particular a message dropped by a
    hook silently takes the rest of the call with it. *)
Inductive taken {W} (hs : list (W * msg -> (W * msg) * hook_res)) (enc : codec) : W -> list msg -> list bytes -> W -> option error -> Prop :=
| tk_all s : taken hs enc s [] [] s None
| tk_pass s m ms s1 m1 f fs s2 e : mverdict hs s m s1 m1 HPass -> marshal enc m1 = Ok f -> taken hs enc s1 ms fs s2 e ->
    taken hs enc s (m :: ms) (f :: fs) s2 e
| tk_drop s m ms s1 m1 : mverdict hs s m s1 m1 HDrop -> taken hs enc s (m :: ms) [] s1 None
| tk_err s m ms s1 m1 e : mverdict hs s m s1 m1 (HErr e) -> taken hs enc s (m :: ms) [] s1 (Some e)
| tk_bad s m ms s1 m1 e : mverdict hs s m s1 m1 HPass -> marshal enc m1 = Err e -> taken hs enc s (m :: ms) [] s1 (Some e).

(** Calls on a writer. *)
Inductive nop := NMsgs (ms : list msg) | NKeep | NFlush | NSetEnc (enc : codec) | NZOn (lvl : Z) | NZOff.

(** The operations on the line writer that a sequence of calls with its results amounts to. *)
Inductive explained {W} (hs : list (W * msg -> (W * msg) * hook_res)) : codec -> W -> list (nop * option error) -> list wop -> W -> Prop :=
| ex_nil enc s : explained hs enc s [] [] s
| ex_msgs enc s ms fs s1 e h ops s2 : taken hs enc s ms fs s1 e -> explained hs enc s1 h ops s2 ->
    explained hs enc s ((NMsgs ms, e) :: h) (map OLine fs ++ ops) s2
| ex_keep enc s h ops s2 : explained hs enc s h ops s2 -> explained hs enc s ((NKeep, None) :: h) (OLine (B "|") :: ops) s2
| ex_flush enc s h ops s2 : explained hs enc s h ops s2 -> explained hs enc s ((NFlush, None) :: h) (OFlush :: ops) s2
| ex_enc enc enc' s h ops s2 : explained hs enc' s h ops s2 -> explained hs enc s ((NSetEnc enc', None) :: h) ops s2
| ex_zon enc s lvl h ops s2 : explained hs enc s h ops s2 ->
    explained hs enc s ((NZOn lvl, None) :: h) (OLine (B "$ZOn|") :: OEnable lvl :: ops) s2
| ex_zoff enc s h ops s2 : explained hs enc s h ops s2 -> explained hs enc s ((NZOff, None) :: h) (ODisable :: ops) s2.

(** The lines among line writer operations, in order. *)
Definition op_lines (ops : list wop) : list bytes := flat_map (fun o => match o with OLine d => [d] | _ => [] end) ops.
(** The sections (see SpecWriter.v) that operations without failure produce. *)
Fixpoint op_sections (ops : list wop) (x : list section * section) : list section * section :=
  match ops with
  | [] => x
  | o :: r => op_sections r (advance o None (match o with OLine d => d | _ => [] end) x)
  end.

Section Runs.
Context {W dst : Type} (dinit : Z -> dst) (dstep : dst -> dop -> dst * list bytes) (junk : msg -> bytes).

(** One call: its error. *)
Definition run_nop (s : W) (o : nop) (x : nwriter W dst) : wout (option error * W * nwriter W dst) :=
  let lift (r : wout (option error * writer W dst)) :=
    match r with WRet (e, w') => WRet (e, s, with_line w' x) | WPan => WPan | WStuck => WStuck end in
  match o with
  | NMsgs ms => write_msg dstep junk s ms x
  | NKeep => write_keep_alive dstep s x
  | NFlush => lift (flush dstep (nw_line x))
  | NSetEnc enc => WRet (None, s, set_encoder enc x)
  | NZOn lvl => zon_level dinit dstep lvl s x
  | NZOff => lift (disable_zlib dstep (nw_line x))
  end.

(** A sequence of calls with their results. *)
Inductive nruns : W -> nwriter W dst -> list (nop * option error) -> W -> nwriter W dst -> Prop :=
| nr_nil s x : nruns s x [] s x
| nr_cons s x o e s1 x1 h s2 x2 : run_nop s o x = WRet (e, s1, x1) -> nruns s1 x1 h s2 x2 -> nruns s x ((o, e) :: h) s2 x2.
End Runs.

(** A new writer with timeouts, encoder and message hooks (no line hooks). *)
Definition nfresh {W dst} (script : list wresp) (size : nat) (tmo : option (list (option error))) (enc : codec)
    (hs : list (W * msg -> (W * msg) * hook_res)) : nwriter W dst :=
  set_encoder enc (fold_left (fun x h => on_message h x) hs (with_line (fresh script size [] tmo) (new_nwriter script size))).

(** Calls that do not switch compression, and successful calls that do. *)
Definition no_switch (r : nop * option error) : Prop := match fst r with NZOn _ | NZOff => False | _ => True end.
(** No failed change of the compression. *)
Definition switch_ok (r : nop * option error) : Prop := match r with (NZOn lvl, e) => (-2 <= lvl <= 9)%Z /\ e = None | (NZOff, e) => e = None | _ => True end.

(** Same writer up to the contents of the scratch buffer. *)
Definition same_writer {W dst} (x y : nwriter W dst) : Prop := nw_line x = nw_line y /\ nw_enc x = nw_enc y /\ nw_msg x = nw_msg y.

(** Hooks that let every message pass, changed by [f]. *)
Definition passing {W} (f : msg -> msg) (hs : list (W * msg -> (W * msg) * hook_res)) : Prop :=
  forall s m s' m' v, mverdict hs s m s' m' v -> v = HPass /\ m' = f m.
(** Hooks that never drop a message silently. *)
Definition never_dropping {W} (hs : list (W * msg -> (W * msg) * hook_res)) : Prop := forall s m s' m', ~ mverdict hs s m s' m' HDrop.
(** What hooks can leave of a message when they pass it; keep-alives are not shown to them. *)
Definition as_left {W} (hs : list (W * msg -> (W * msg) * hook_res)) (a b : option msg) : Prop :=
  match a, b with
  | Some m, Some m' => exists s s', mverdict hs s m s' m' HPass
  | None, None => True
  | _, _ => False
  end.

(** The messages and keep-alives (None) handed to a sequence of calls. *)
Definition nop_items (h : list (nop * option error)) : list (option msg) :=
  flat_map (fun r => match fst r with NMsgs ms => map Some ms | NKeep => [None] | _ => [] end) h.
(** The same with the messages changed by [f]. *)
Definition items_as (f : msg -> msg) (h : list (nop * option error)) : list (option msg) := map (option_map f) (nop_items h).
(** The encoder is not changed. *)
Definition same_encoder (r : nop * option error) : Prop := match fst r with NSetEnc _ => False | _ => True end.
