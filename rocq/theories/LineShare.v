(** lineproto/reader.go once more, with the buffer of the lines in memory: what ReadLine returns
    is a slice of an array that the next ReadLine writes into, and a line hook gets the same slice.

    Simplifications: everything but the [line] field is LineReader.v (whose [scan] is used as it
    is; the chunks it returns are copied by [append] and are values here).  A hook may change
    the bytes of the line it is given, nothing else: it keeps no slices to change them later and
    does not write behind the line.  How much [append] allocates is an arbitrary function. *)
From Verif Require Import Base LineReader.

(** Model only: the arrays behind slices of bytes, by number (lineproto/reader.go:134,150);
    the length of an array is the capacity of a slice that starts at its first byte. *)
Notation memory := (list bytes).
(** Model only: a slice of an array: [array][off:off+len] (lineproto/reader.go:134) *)
Record slice := mkSlice { sl_arr : nat; sl_off : nat; sl_len : nat }.

(** Model only: the array behind a slice (lineproto/reader.go:134) *)
Definition array (m : memory) (a : nat) : bytes := nth a m [].
(** Model only: the bytes of a slice (the line given to a hook and to the caller,
    lineproto/reader.go:213-225) *)
Definition view (m : memory) (s : slice) : bytes := firstn (sl_len s) (skipn (sl_off s) (array m (sl_arr s))).
(** Model only: cap(s) - len(s) of a slice (lineproto/reader.go:206, adc/packets.go:693-708) *)
Definition spare_of (m : memory) (s : slice) : nat := length (array m (sl_arr s)) - (sl_off s + sl_len s).
(** Model only: replace an array (lineproto/reader.go:206) *)
Fixpoint put_array (a : nat) (b : bytes) (m : memory) : memory :=
  match a, m with
  | _, [] => []
  | O, _ :: m => b :: m
  | S a, x :: m => x :: put_array a b m
  end.
(** Model only: copy(b[i:], d), all of [d] fitting (lineproto/reader.go:206) *)
Definition splice (i : nat) (d b : bytes) : bytes := firstn i b ++ d ++ skipn (i + length d) b.

(** A function of onLine that may write to its line, lineproto/reader.go:139,215: the line it leaves *)
Definition whook (W : Type) : Type := W -> bytes -> (W * bytes) * hook_res.
(** A function that does not (LineReader.v), lineproto/reader.go:139 *)
Definition watching {W} (h : hook W) : whook W := fun w l => let (w', r) := h w l in ((w', l), r).

Section Share.
Context {W zstate : Type} (act : zstate -> zaction zstate) (zinit : zstate).
(** Model only: the capacity [append] allocates for a slice of a capacity and a needed length
    (lineproto/reader.go:206); less than needed counts as the needed length *)
Variable grow : nat -> nat -> nat.

(** append(s, d...), lineproto/reader.go:206: in place if the capacity suffices *)
Definition append_to (m : memory) (s : slice) (d : bytes) : memory * slice :=
  let b := array m (sl_arr s) in
  let need := (sl_off s + sl_len s + length d)%nat in
  if (need <=? length b)%nat
  then (put_array (sl_arr s) (splice (sl_off s + sl_len s) d b) m,
        mkSlice (sl_arr s) (sl_off s) (sl_len s + length d))
  else let l := view m s ++ d in
       (m ++ [l ++ repeat x00 (grow (length b - sl_off s) (length l) - length l)],
        mkSlice (length m) 0 (length l)).

(** Model only: what a hook wrote, at most the length of the line (lineproto/reader.go:215) *)
Definition edit (m : memory) (s : slice) (new : bytes) : memory :=
  put_array (sl_arr s) (splice (sl_off s) (firstn (sl_len s) new) (array m (sl_arr s))) m.

(** The hook loop, lineproto/reader.go:214-222 *)
Fixpoint share_hooks (hs : list (whook W)) (w : W) (m : memory) (s : slice) : W * memory * hook_res :=
  match hs with
  | [] => (w, m, HPass)
  | h :: t => match h w (view m s) with
              | ((w', l), HPass) => share_hooks t w' (edit m s l) s
              | ((w', l), r) => (w', edit m s l, r)
              end
  end.

(** Reader, lineproto/reader.go:125-140: [sr_rd] has all fields but [line] and [onLine] *)
Record sreader := mkSreader {
  sr_rd : reader unit zstate;
  sr_line : slice;
  sr_hooks : list (whook W)
}.

(** NewReader, lineproto/reader.go:143-152: the line buffer is a new array *)
Definition new_sreader (m : memory) (c : script) (delim : byte) : memory * sreader :=
  (m ++ [repeat x00 read_buf], mkSreader (new_reader c delim) (mkSlice (length m) 0 read_buf) []).

(** Result of ReadLine, lineproto/reader.go:188-226 *)
Inductive share_out :=
| SLine (s : slice)
| SErr (partial : option slice) (e : error)
| SPanic.

(** Loop of ReadLine, lineproto/reader.go:194-225; [s] is r.line *)
Fixpoint share_loop (fuel : nat) (hs : list (whook W)) (w : W) (m : memory) (s : slice) (r : reader unit zstate)
  : option (share_out * W * memory * slice * reader unit zstate) :=
  match fuel with
  | O => None
  | S f =>
      if ((0 <? rd_max r) && (rd_max r <=? Z.of_nat (sl_len s)))%Z%bool
      then Some (SErr None err_exhausted, w, m, s, r)
      else
        match scan act f r with
        | None => None
        | Some (RPanic, r') => Some (SPanic, w, m, s, r')
        | Some (RErr e, r') =>
            if (is_eof e && rd_zlib_on r')%bool
            then share_loop f hs w m s (with_mode false false r')
            else let (m', s') := append_to m s [] in Some (SErr (Some s') e, w, m', s', r')
        | Some (ROk (pref, more), r') =>
            let (m', s') := append_to m s pref in
            if more then share_loop f hs w m' s' r'
            else
              match share_hooks hs w m' s' with
              | (w', m2, HPass) => Some (SLine s', w', m2, s', r')
              | (w', m2, HDrop) => share_loop f hs w' m2 (mkSlice (sl_arr s') (sl_off s') 0) r'
              | (w', m2, HErr e) => Some (SErr None e, w', m2, s', r')
              end
        end
  end.

(** Reader.ReadLine, lineproto/reader.go:188-226; line 192: r.line = r.line[:0] *)
Definition share_read_line (fuel : nat) (w : W) (m : memory) (R : sreader)
  : option (share_out * W * memory * sreader) :=
  if rd_open (sr_rd R) then
    match share_loop fuel (sr_hooks R) w m (mkSlice (sl_arr (sr_line R)) (sl_off (sr_line R)) 0) (sr_rd R) with
    | None => None
    | Some (out, w', m', s, r) => Some (out, w', m', mkSreader r s (sr_hooks R))
    end
  else Some (SErr None err_closed, w, m, R).

(** The calls of a line reader, lineproto/reader.go:155-302: Close, SetMaxLine, OnLine, ReadLine,
    Read, EnableZlib and the Read of what Binary returns *)
Inductive share_op := OpClose | OpMax (n : Z) | OpHook (h : whook W) | OpLine | OpRead (n : nat)
                    | OpZlib | OpBinary (n : nat) (rest : Z).

(** One call, lineproto/reader.go:155-302; only ReadLine uses the line buffer.  Close drops it
    (the reader never uses it again).  None: out of fuel. *)
Definition share_call (fuel : nat) (o : share_op) (w : W) (m : memory) (R : sreader) : option (W * memory * sreader) :=
  let with_rd r := Some (w, m, mkSreader r (sr_line R) (sr_hooks R)) in
  match o with
  | OpClose => Some (w, m, mkSreader (close_reader (sr_rd R)) (sr_line R) [])
  | OpMax n => with_rd (set_max_line n (sr_rd R))
  | OpHook h => Some (w, m, mkSreader (sr_rd R) (sr_line R) (sr_hooks R ++ [h]))
  | OpLine => match share_read_line fuel w m R with Some (_, w', m', R') => Some (w', m', R') | None => None end
  | OpRead n => match reader_read act fuel n (sr_rd R) with Some (_, r) => with_rd r | None => None end
  | OpZlib => match enable_zlib act zinit fuel (sr_rd R) with Some (_, r) => with_rd r | None => None end
  | OpBinary n rest => match binary_read act fuel n rest (sr_rd R) with Some (_, _, r) => with_rd r | None => None end
  end.

(** Calls one after the other, lineproto/reader.go:155-302 *)
Fixpoint share_calls (fuel : nat) (os : list share_op) (w : W) (m : memory) (R : sreader) : option (W * memory * sreader) :=
  match os with
  | [] => Some (w, m, R)
  | o :: os => match share_call fuel o w m R with
               | Some (w', m', R') => share_calls fuel os w' m' R'
               | None => None
               end
  end.
End Share.
Arguments mkSreader {W zstate}. Arguments sr_rd {W zstate}. Arguments sr_line {W zstate}. Arguments sr_hooks {W zstate}.
Arguments new_sreader {W zstate}.

(** The arguments of a command or the text of a chat line within a line that ends with the
    delimiter, as slices of the line: nmdc/reader.go:165,182-187,249.  ErrUnexpectedCommand has
    this slice as Received.Data (nmdc/reader.go:219-224,233-246,270-288). *)
Definition received_slice (s : slice) (l : bytes) : slice :=
  match removelast l with
  | [] => mkSlice (sl_arr s) (sl_off s) 0
  | b :: t =>
      if beq b "$"%byte then
        match index_byte " "%byte t with
        | Some i => mkSlice (sl_arr s) (sl_off s + 2 + i) (length t - S i)
        | None => mkSlice (sl_arr s) (sl_off s) 0
        end
      else mkSlice (sl_arr s) (sl_off s) (length (b :: t))
  end.

(** The payload of a packet as a slice of its line: each UnmarshalPacketADC cuts the delimiter and
    then only moves the start (adc/packets.go:120-127,186,245,323-331,422-430,518-526,585,684-722,789-797) *)
Definition payload_slice (s : slice) (l : bytes) (data : bytes) : slice :=
  mkSlice (sl_arr s) (sl_off s + (length l - 1 - length data)) (length data).
