(** Specification of callbacks that write messages with the message writer they belong to. *)
From Verif Require Import Base LineReader LineWriter SpecWriter WriterReentry MsgReentry.

(** The bytes an encoder has written; None if it assigns to the last byte of nothing. *)
Fixpoint built (os : list bop) (t : bytes) : option bytes :=
  match os with
  | [] => Some t
  | BPut p :: os' => built os' (t ++ p)
  | BGrow _ :: os' => built os' t
  | BLast c :: os' => match t with [] => None | _ => built os' (removelast t ++ [c]) end
  end.
(** How much room it asks for. *)
Fixpoint needed (os : list bop) (n : nat) : nat :=
  match os with
  | [] => n
  | BPut p :: os' => needed os' (n + length p)
  | BGrow k :: os' => Nat.max (n + k) (needed os' n)
  | BLast _ :: os' => needed os' n
  end.
(** What it writes before it asks for more than [c] bytes, and if this is all. *)
Fixpoint within (c : nat) (os : list bop) (t : bytes) : bytes * bool :=
  match os with
  | [] => (t, true)
  | BPut p :: os' => if (length t + length p <=? c)%nat then within c os' (t ++ p) else (t, false)
  | BGrow k :: os' => if (length t + k <=? c)%nat then within c os' t else (t, false)
  | BLast x :: os' => within c os' (removelast t ++ [x])
  end.
(** A buffer as Go programs have it. *)
Definition good_buf (b : mbuf) : Prop := (mb_at b < length (mb_heap b))%nat /\ (mb_len b <= length (b_array (mb_at b) b))%nat.
(** The bytes of a line over which others have been written. *)
Definition overwritten (line t : bytes) : bytes := firstn (length line) (t ++ skipn (length t) line).

Section Spec.
Context {M dst : Type} (dstep : dst -> dop -> dst * list bytes) (enc : M -> list bop * option error).
(** What becomes of a line in a buffer with room for [c] bytes while messages are written: the text of each of them over it, until one
    of them takes another array. *)
Fixpoint smear (c : nat) (ms : list M) (line : bytes) : bytes :=
  match ms with
  | [] => line
  | m :: ms' => let (u, whole) := within c (fst (enc m)) [] in if whole then smear c ms' (overwritten line u) else overwritten line u
  end.
(** Messages one after the other on a line writer without callbacks, until one cannot be encoded or written. *)
Fixpoint messages_until (ms : list M) (l : writer unit dst) : wout (option error * writer unit dst) :=
  match ms with
  | [] => WRet (None, l)
  | m :: ms' =>
      match built (fst (enc m)) [], snd (enc m) with
      | None, _ => WPan
      | Some _, Some e => WRet (Some e, l)
      | Some t, None => match write_line dstep tt t l with
                        | WRet (None, _, l') => messages_until ms' l'
                        | WRet (Some e, _, l') => WRet (Some e, l')
                        | WPan => WPan
                        | WStuck => WStuck
                        end
      end
  end.
End Spec.

Section Callbacks.
Context {M : Type}.
(** A callback that writes messages, up to the first error, and then decides [v].  The state tells if it is running. *)
Fixpoint writes_first (ms : list M) (v : hook_res) : mprog bool M :=
  match ms with
  | [] => MReturn false v
  | m :: ms' => MMsg true m (fun e _ => match e with None => writes_first ms' v | Some e => MReturn false (HErr e) end)
  end.
Definition first {A} (pre : A -> list M) (v : A -> hook_res) : bool -> A -> mprog bool M :=
  fun busy a => if busy then MReturn true HPass else writes_first (pre a) (v a).

(** A callback that writes no messages. *)
Inductive calm {W} : mprog W M -> Prop :=
| cm_return w v : calm (MReturn w v)
| cm_panic : calm MPan
| cm_line w d k : (forall e w', calm (k e w')) -> calm (MLine w d k)
| cm_flush k : (forall e, calm (k e)) -> calm (MFlush k)
| cm_err k : (forall e, calm (k e)) -> calm (MErr k).
End Callbacks.
(** The same callback for the line writer, C146. *)
Fixpoint line_calls {W M} (p : mprog W M) : wprog W :=
  match p with
  | MReturn w v => QReturn w v
  | MPan | MMsg _ _ _ => QPanic
  | MLine w d k => QLine w d (fun e w' => line_calls (k e w'))
  | MFlush k => QFlush (fun e => line_calls (k e))
  | MErr k => QErr (fun e => line_calls (k e))
  end.
Definition line_hook {W M} (h : W -> bytes -> mprog W M) : W -> bytes -> wprog W := fun w l => line_calls (h w l).
