(** Specification of line callbacks that call ReadLine of the reader they belong to. *)
From Verif Require Import Base LineReader LineReentry MsgReentry LineNest SpecMsgReentry.

(** A callback that does not call ReadLine. *)
Fixpoint lift {W} (p : hprog W) : nprog W :=
  match p with
  | PReturn w v => NReturn w v
  | PPanic w => NPanic w
  | PZlib k => NZlib (fun o => lift (k o))
  | PRead n k => NRead n (fun o => lift (k o))
  | PMax sz q => NMax sz (lift q)
  | PHook h q => NHook (fun w l => lift (h w l)) (lift q)
  | PClose q => NClose (lift q)
  end.
Definition lifts {W} (h : W -> bytes -> hprog W) : W -> bytes -> nprog W := fun w l => lift (h w l).

(** A callback that reads further lines when it sees a line, as many as [n] says, and then decides.  It passes the lines it reads itself; the
    state tells if it is running.  An error of ReadLine is its own. *)
Fixpoint takes (n : nat) (acc : list bytes) (v : list bytes -> hook_res) : nprog bool :=
  match n with
  | O => NReturn false (v acc)
  | S n' => NLine true (fun o _ => match o with
                                   | LLine l => takes n' (acc ++ [l]) v
                                   | LErr _ e => NReturn false (HErr e)
                                   | LPanic => NPanic false
                                   end)
  end.
Definition taking (n : bytes -> nat) (v : bytes -> list bytes -> hook_res) : bool -> bytes -> nprog bool :=
  fun busy l => if busy then NReturn true HPass else takes (n l) [] (v l).

(** A callback that calls ReadLine when its state asks for it ([q]) and passes every line: the state goes to the callbacks of that call, and what they
    leave comes back. *)
Definition asking {W} (q : W -> bool) (enter : W -> bytes -> W) (leave : line_out -> W -> W) (step : W -> bytes -> W) : W -> bytes -> nprog W :=
  fun w l => if q w then NLine (enter w l) (fun o w' => NReturn (leave o w') HPass) else NReturn (step w l) HPass.

Section Spec.
Context {Z : Type} (act : Z -> zaction Z).
(** The next lines of a reader without callbacks. *)
Inductive gets : reader unit Z -> list bytes -> reader unit Z -> Prop :=
| gt_nil r : gets r [] r
| gt_cons r f l r' ls r2 : read_line act f tt r = Some (LLine l, tt, r') -> gets r' ls r2 -> gets r (l :: ls) r2.
End Spec.
