(** Specification of slices of the line buffer: which bytes a slice has, what hooks that write to
    their line leave, and which bytes a kept slice has after the next line. *)
From Verif Require Import Base LineReader LineShare.

(** The slice has these bytes. *)
Definition holds (m : list bytes) (s : slice) (l : bytes) : Prop :=
  length l = sl_len s /\
  exists b, nth_error m (sl_arr s) = Some b /\
    forall i, (i < sl_len s)%nat -> nth_error b (sl_off s + i) = nth_error l i.

(** The line buffer of a reader is the beginning of an array of that many bytes. *)
Definition buffer {W zstate} (m : list bytes) (R : sreader (W:=W) (zstate:=zstate)) (cap : nat) : Prop :=
  sl_off (sr_line R) = 0%nat /\ (sl_len (sr_line R) <= cap)%nat /\
  exists b, nth_error m (sl_arr (sr_line R)) = Some b /\ length b = cap.

(** [new] written over [l], never behind its end *)
Definition over (new l : bytes) : bytes := firstn (length l) new ++ skipn (length new) l.

(** Each hook sees what the hooks before it left; the first that does not pass the line is the last
    to run. *)
Inductive edits {W} : list (whook W) -> W -> bytes -> W -> bytes -> hook_res -> Prop :=
| ed_end w l : edits [] w l w l HPass
| ed_pass h t w l w1 n w2 l2 r :
    h w l = ((w1, n), HPass) -> edits t w1 (over n l) w2 l2 r -> edits (h :: t) w l w2 l2 r
| ed_stop h t w l w1 n r :
    h w l = ((w1, n), r) -> r <> HPass -> edits (h :: t) w l w1 (over n l) r.

(** A hook of values that stands for hooks that write: it keeps what they left. *)
Definition stands_for {W} (hs : list (whook W)) (h : hook (W * bytes)) : Prop :=
  forall w x l w' l' r, edits hs w l w' l' r -> h (w, x) l = ((w', l'), r).

(** The same reader, but for its hooks *)
Definition same_but_hooks {W1 W2 zstate} (a : reader W1 zstate) (b : reader W2 zstate) : Prop :=
  rd_delim a = rd_delim b /\ rd_max a = rd_max b /\ rd_open a = rd_open b /\ rd_conn a = rd_conn b /\
  rd_orig a = rd_orig b /\ rd_zlib_on a = rd_zlib_on b /\ rd_zcur a = rd_zcur b /\ rd_z a = rd_z b /\
  rd_comp a = rd_comp b.

(** A result with slices shows a result with values. *)
Definition shows (m : list bytes) (a : share_out) (b : line_out) : Prop :=
  match a, b with
  | SLine s, LLine l => holds m s l
  | SErr (Some s) e, LErr (Some p) e' => holds m s p /\ e = e'
  | SErr None e, LErr None e' => e = e'
  | SPanic, LPanic => True
  | _, _ => False
  end.

(** The result with the line that the hooks left. *)
Definition left_by_hooks (l : bytes) (o : line_out) : line_out :=
  match o with LLine _ => LLine l | _ => o end.

(** [now] are the bytes of a slice that begins [off] bytes into the line buffer and was [was], after
    the first [k] bytes of the line [l] were written to the buffer. *)
Definition overwritten (k off : nat) (l was now : bytes) : Prop :=
  length now = length was /\
  forall i, (i < length was)%nat ->
    nth_error now i = if (off + i <? k)%nat then nth_error l (off + i) else nth_error was i.
