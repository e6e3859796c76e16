(** Independent specification of line callbacks that write to the line. *)
From Verif Require Import Base LineReader LineWriter LineEdit.

(** [d1] is [d] with [new] written over its beginning: the same length, each byte from the one
    or the other. *)
Definition overlaid (d new d1 : bytes) : Prop :=
  length d1 = length d /\ forall k, k < length d -> nth k d1 x00 = if (k <? length new)%nat then nth k new x00 else nth k d x00.

(** What the callbacks say about a line and what they leave of it. *)
Inductive everdict {W} : list (edit_hook W) -> W -> bytes -> W -> bytes -> hook_res -> Prop :=
| ev_none w d : everdict [] w d w d HPass
| ev_pass h hs w d w1 new d1 w2 d2 v : h w d = ((w1, new), HPass) -> overlaid d new d1 -> everdict hs w1 d1 w2 d2 v -> everdict (h :: hs) w d w2 d2 v
| ev_stop h hs w d w1 new d1 v : h w d = ((w1, new), v) -> v <> HPass -> overlaid d new d1 -> everdict (h :: hs) w d w1 d1 v.

(** Slices [mem'] are slices [mem] except that number [i] (if there is one) is [d]. *)
Definition replaced (i : nat) (d : bytes) (mem mem' : list bytes) : Prop :=
  length mem' = length mem /\ (i < length mem -> nth i mem' [] = d) /\ (forall j, j <> i -> nth j mem' [] = nth j mem []).

(** The lines that a sequence of successful steps is to write. *)
Inductive sent {W} (hs : list (edit_hook W)) : W -> list bytes -> list (eop * option error) -> list bytes -> W -> list bytes -> Prop :=
| se_nil s mem : sent hs s mem [] [] s mem
| se_line s mem i s1 d mem1 h ls s2 mem2 : everdict hs s (nth i mem []) s1 d HPass -> replaced i d mem mem1 -> sent hs s1 mem1 h ls s2 mem2 ->
    sent hs s mem ((ELine i, None) :: h) (d :: ls) s2 mem2
| se_drop s mem i s1 d mem1 h ls s2 mem2 : everdict hs s (nth i mem []) s1 d HDrop -> replaced i d mem mem1 -> sent hs s1 mem1 h ls s2 mem2 ->
    sent hs s mem ((ELine i, None) :: h) ls s2 mem2
| se_flush s mem h ls s2 mem2 : sent hs s mem h ls s2 mem2 -> sent hs s mem ((EFlush, None) :: h) ls s2 mem2
| se_fill s mem i d mem1 h ls s2 mem2 : replaced i d mem mem1 -> sent hs s mem1 h ls s2 mem2 -> sent hs s mem ((EFill i d, None) :: h) ls s2 mem2.

(** A callback that only looks, as a callback that may write. *)
Definition looking {W} (h : hook W) : edit_hook W := fun s d => let '(s1, v) := h s d in ((s1, []), v).

(** Two writers that differ in nothing but their callbacks. *)
Definition same_but_callbacks {W dst} (a b : writer W dst) : Prop :=
  wr_timeout a = wr_timeout b /\ wr_treplies a = wr_treplies b /\ wr_conn a = wr_conn b /\ wr_open a = wr_open b /\ wr_zcur a = wr_zcur b /\
  wr_size a = wr_size b /\ wr_buf a = wr_buf b /\ wr_berr a = wr_berr b /\ wr_err a = wr_err b /\ wr_zlib_on a = wr_zlib_on b /\
  wr_zw a = wr_zw b /\ wr_lvl a = wr_lvl b.
(** WriteLine with a result of the one kind and of the other. *)
Definition alike_lines {W dst} (d : bytes) (x : wout (option error * W * bytes * writer W dst)) (y : wout (option error * W * writer W dst)) : Prop :=
  match x, y with
  | WRet (e, s, d', a), WRet (e', s', b) => e = e' /\ s = s' /\ d' = d /\ same_but_callbacks a b
  | WPan, WPan => True
  | WStuck, WStuck => True
  | _, _ => False
  end.
