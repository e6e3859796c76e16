(** Specification of WriteMsg for messages of a program, and of SetEncoder during calls. *)
From Verif Require Import Base NmdcText NmdcMessage LineReader LineWriter SpecEdit SpecFrame NmdcProgram.

Section Spec.
Context {W A dst : Type} (dstep : dst -> dop -> dst * list bytes).
Variable M : methods W A.

(** [gives a enc s s' d r]: asked to encode itself, the message appends [d] to the buffer, whatever is in it, and ends with [r]. *)
Definition gives (a : A) (enc : codec) (s s' : env W) (d : bytes) (r : pend) : Prop := forall b, p_marshal M a enc s b = (s', b ++ d, r).
(** Messages that only append to the buffer. *)
Definition appending : Prop := forall a enc s, exists s' d r, gives a enc s s' d r.

(** The callbacks are asked in order until one does not pass the message. *)
Inductive asked : list (phook W A) -> env W -> A -> env W -> A -> hook_res -> Prop :=
| as_none s a : asked [] s a s a HPass
| as_pass h hs s a s1 a1 s2 a2 v : h s a = ((s1, a1), HPass) -> asked hs s1 a1 s2 a2 v -> asked (h :: hs) s a s2 a2 v
| as_stop h hs s a s1 a1 v : h s a = ((s1, a1), v) -> v <> HPass -> asked (h :: hs) s a s1 a1 v.

(** What the encoding of one message amounts to: a frame, an error or a panic.  A message without command and without payload panics. *)
Inductive encoded (enc : codec) (s : env W) (a : A) (s' : env W) : res bytes -> Prop :=
| en_frame d f : gives a enc s s' d PDone -> framed (p_type M a) d f -> encoded enc s a s' (Ok f)
| en_nothing : gives a enc s s' [] PDone -> p_type M a = [] -> encoded enc s a s' Panic
| en_error d e : gives a enc s s' d (PFail e) -> encoded enc s a s' (Err e)
| en_panic d : gives a enc s s' d PPanic -> encoded enc s a s' Panic.

(** [sent hs enc s l w r s' w']: with the encoder [enc], the messages [l] become calls of WriteLine of the line writer [w], until
    one of them is not written. *)
Inductive sent (hs : list (phook W A)) (enc : codec) : env W -> list A -> writer (env W) dst -> pout -> env W -> writer (env W) dst -> Prop :=
| sn_all s w : sent hs enc s [] w (Returned None) s w
| sn_line s a l w s1 a1 s2 f s3 w1 r s4 w2 : asked hs s a s1 a1 HPass -> encoded enc s1 a1 s2 (Ok f) -> write_line dstep s2 f w = WRet (None, s3, w1) ->
    sent hs enc s3 l w1 r s4 w2 -> sent hs enc s (a :: l) w r s4 w2
| sn_broken s a l w s1 a1 s2 f s3 w1 e : asked hs s a s1 a1 HPass -> encoded enc s1 a1 s2 (Ok f) -> write_line dstep s2 f w = WRet (Some e, s3, w1) ->
    sent hs enc s (a :: l) w (Returned (Some e)) s3 w1
| sn_drop s a l w s1 a1 : asked hs s a s1 a1 HDrop -> sent hs enc s (a :: l) w (Returned None) s1 w
| sn_refuse s a l w s1 a1 e : asked hs s a s1 a1 (HErr e) -> sent hs enc s (a :: l) w (Returned (Some e)) s1 w
| sn_error s a l w s1 a1 s2 e : asked hs s a s1 a1 HPass -> encoded enc s1 a1 s2 (Err e) -> sent hs enc s (a :: l) w (Returned (Some e)) s2 w
| sn_panic s a l w s1 a1 s2 : asked hs s a s1 a1 HPass -> encoded enc s1 a1 s2 Panic -> sent hs enc s (a :: l) w Panicked s2 w.

(** The calls of a program. The encoder of a WriteMsg is the one that is set when it begins. *)
Inductive program (hs : list (phook W A)) : env W -> writer (env W) dst -> list (pop A * pout) -> env W -> writer (env W) dst -> Prop :=
| pr_nil s w : program hs s w [] s w
| pr_failed s w e l h s' w' : wr_err w = Some e -> program hs s w h s' w' -> program hs s w ((PMsgs l, Returned (Some e)) :: h) s' w'
| pr_msgs st enc w l r s1 w1 h s' w' : wr_err w = None -> sent hs enc (st, enc) l w r s1 w1 -> program hs s1 w1 h s' w' ->
    program hs (st, enc) w ((PMsgs l, r) :: h) s' w'
| pr_keep s w e s1 w1 h s' w' : write_line dstep s (B "|") w = WRet (e, s1, w1) -> program hs s1 w1 h s' w' -> program hs s w ((PKeep, Returned e) :: h) s' w'
| pr_flush s w e w1 h s' w' : flush dstep w = WRet (e, w1) -> program hs s w1 h s' w' -> program hs s w ((PFlush, Returned e) :: h) s' w'
| pr_set st enc enc' w h s' w' : program hs (st, enc') w h s' w' -> program hs (st, enc) w ((PSetEnc enc', Returned None) :: h) s' w'.
End Spec.

(** ** SetEncoder during a call *)
Section Alike.
Context {W A dst : Type}.
(** The same but for the encoder. *)
Definition same_state (s t : env W) : Prop := fst s = fst t.
(** Callbacks that do the same, but for their calls of SetEncoder. *)
Definition alike_hook (h k : phook W A) : Prop := forall s t a, same_state s t ->
  same_state (fst (fst (h s a))) (fst (fst (k t a))) /\ snd (fst (h s a)) = snd (fst (k t a)) /\ snd (h s a) = snd (k t a).
(** The same for callbacks of the line writer. *)
Definition alike_line_hook (h k : hook (env W)) : Prop := forall s t d, same_state s t ->
  same_state (fst (h s d)) (fst (k t d)) /\ snd (h s d) = snd (k t d).
(** Messages that do the same, but for their calls of SetEncoder. *)
Definition alike_methods (M N : methods W A) : Prop := (forall a, p_type M a = p_type N a) /\
  forall a enc s t b, same_state s t -> let '(s', b', r) := p_marshal M a enc s b in let '(t', c', q) := p_marshal N a enc t b in
    same_state s' t' /\ b' = c' /\ r = q.
(** Writers of which the callbacks do the same, but for their calls of SetEncoder. *)
Definition alike_writer (x y : pwriter W A dst) : Prop :=
  same_but_callbacks (pw_line x) (pw_line y) /\ Forall2 alike_line_hook (wr_hooks (pw_line x)) (wr_hooks (pw_line y)) /\ Forall2 alike_hook (pw_msg x) (pw_msg y).
End Alike.
