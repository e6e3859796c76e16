(** The line reader of lineproto/reader.go with line callbacks that call ReadLine of the reader they belong to.

    LineReentry.v has the other calls.  A callback is given [r.line] itself, and ReadLine in the callback reads into the same memory, so the
    memory is modelled: the arrays [r.line] has been in, as in MsgReentry.v.

    Simplifications: Binary is seen as the Read calls it makes.  A callback does not write to the line (C128).  What ReadLine returns
    in a callback is seen by the callback as it is then. *)
From Verif Require Import Base LineReader LineReentry MsgReentry.

(** What a line callback does, lineproto/reader.go:181-183,213-222: as [hprog], and [NLine] calls ReadLine.  The state of the program is
    given to the callbacks of that call, and comes back with its result. *)
Inductive nprog (W : Type) :=
| NReturn (w : W) (v : hook_res)
| NPanic (w : W)
| NLine (w : W) (k : line_out -> W -> nprog W)
| NZlib (k : rout unit -> nprog W)
| NRead (n : nat) (k : rout (bytes * option error) -> nprog W)
| NMax (sz : BinInt.Z) (p : nprog W)
| NHook (h : W -> bytes -> nprog W) (p : nprog W)
| NClose (p : nprog W).
Arguments NReturn {W}. Arguments NPanic {W}. Arguments NLine {W}. Arguments NZlib {W}. Arguments NRead {W}.
Arguments NMax {W}. Arguments NHook {W}. Arguments NClose {W}.

Section Nest.
Context {W Z : Type} (act : Z -> zaction Z) (zinit : Z) (room : nat -> nat -> nat).
(** Model only: a callback, lineproto/reader.go:139 *)
Notation nhook := (W -> bytes -> nprog W).

(** Reader, lineproto/reader.go:125-140: [r.onLine], [r.line] and the other fields *)
Record nreader := mkNreader { nr_hooks : list nhook; nr_rest : reader unit Z; nr_line : mbuf }.
(** Model only: the fields other than these two, lineproto/reader.go:126-133 *)
Definition n_with (r : reader unit Z) (s : nreader) : nreader := mkNreader (nr_hooks s) r (nr_line s).
(** Model only: r.line, lineproto/reader.go:134 *)
Definition n_mem (b : mbuf) (s : nreader) : nreader := mkNreader (nr_hooks s) (nr_rest s) b.
(** r.line = r.line[:0], lineproto/reader.go:192,219 *)
Definition n_reset (s : nreader) : nreader := n_mem (b_reset (nr_line s)) s.
(** r.line = append(r.line, pref...), lineproto/reader.go:206: in place if there is room ([b_do] of a write always succeeds) *)
Definition n_append (p : bytes) (s : nreader) : nreader :=
  n_mem match b_do room (BPut p) (nr_line s) with Some b => b | None => nr_line s end s.
(** r.line, lineproto/reader.go:208,213 *)
Definition n_cur (s : nreader) : bytes := b_slice (mb_at (nr_line s)) (mb_len (nr_line s)) (nr_line s).
(** Close, lineproto/reader.go:155-169: [r.line] becomes nil, lines that have been given out stay in their array *)
Definition n_close (s : nreader) : nreader :=
  mkNreader [] (close_reader (nr_rest s)) (mkMbuf (mb_heap (nr_line s) ++ [[]]) (length (mb_heap (nr_line s))) 0).

Section Run.
(** ReadLine called in a callback, lineproto/reader.go:188 *)
Variable again : W -> nreader -> option (line_out * W * nreader).
(** A callback runs, lineproto/reader.go:215: [None] as verdict is a panic *)
Fixpoint run_nprog (fuel : nat) (p : nprog W) (s : nreader) : option (W * option hook_res * nreader) :=
  match p with
  | NReturn w v => Some (w, Some v, s)
  | NPanic w => Some (w, None, s)
  | NLine w k => match again w s with
                 | None => None
                 | Some (o, w', s') => run_nprog fuel (k o w') s'
                 end
  | NZlib k => match enable_zlib act zinit fuel (nr_rest s) with
               | None => None
               | Some (o, r) => run_nprog fuel (k o) (n_with r s)
               end
  | NRead n k => match reader_read act fuel n (nr_rest s) with
                 | None => None
                 | Some (o, r) => run_nprog fuel (k o) (n_with r s)
                 end
  | NMax sz q => run_nprog fuel q (n_with (set_max_line sz (nr_rest s)) s)
  | NHook h q => run_nprog fuel q (mkNreader (nr_hooks s ++ [h]) (nr_rest s) (nr_line s))
  | NClose q => run_nprog fuel q (n_close s)
  end.
(** The loop over the callbacks, lineproto/reader.go:214-222: each of them is given the first [n] bytes of array [i] as they are then *)
Fixpoint run_nprogs (fuel : nat) (i n : nat) (hs : list nhook) (w : W) (s : nreader) : option (W * option hook_res * nreader) :=
  match hs with
  | [] => Some (w, Some HPass, s)
  | h :: hs' => match run_nprog fuel (h w (b_slice i n (nr_line s))) s with
                | Some (w', Some HPass, s') => run_nprogs fuel i n hs' w' s'
                | x => x
                end
  end.
End Run.

(** The loop of ReadLine, lineproto/reader.go:194-225.  The line it returns (line 224) is the slice of line 213, with the bytes that are in
    it then. *)
Fixpoint n_loop (fuel : nat) (w : W) (s : nreader) : option (line_out * W * nreader) :=
  match fuel with
  | O => None
  | S f =>
      let r := nr_rest s in
      if ((0 <? rd_max r) && (rd_max r <=? BinInt.Z.of_nat (mb_len (nr_line s))))%Z%bool
      then Some (LErr None err_exhausted, w, s)
      else if negb (rd_open r) then Some (LPanic, w, s)
      else
        match scan act f r with
        | None => None
        | Some (RPanic, r') => Some (LPanic, w, n_with r' s)
        | Some (RErr e, r') =>
            if (is_eof e && rd_zlib_on r')%bool
            then n_loop f w (n_with (with_mode false false r') s)
            else Some (LErr (Some (n_cur s)) e, w, n_with r' s)
        | Some (ROk (pref, more), r') =>
            let s' := n_append pref (n_with r' s) in
            if more then n_loop f w s'
            else
              let i := mb_at (nr_line s') in
              let n := mb_len (nr_line s') in
              let again := fun w s => if rd_open (nr_rest s) then n_loop f w (n_reset s) else Some (LErr None err_closed, w, s) in
              match run_nprogs again f i n (nr_hooks s) w s' with
              | None => None
              | Some (w', Some HPass, s2) => Some (LLine (b_slice i n (nr_line s2)), w', s2)
              | Some (w', Some HDrop, s2) => n_loop f w' (n_reset s2)
              | Some (w', Some (HErr e), s2) => Some (LErr None e, w', s2)
              | Some (w', None, s2) => Some (LPanic, w', s2)
              end
        end
  end.
(** ReadLine, lineproto/reader.go:188-226 *)
Definition n_read_line (fuel : nat) (w : W) (s : nreader) : option (line_out * W * nreader) :=
  if rd_open (nr_rest s) then n_loop fuel w (n_reset s) else Some (LErr None err_closed, w, s).
(** Model only: [n] calls of ReadLine (lineproto/reader.go:188) *)
Fixpoint n_lines (fuel n : nat) (w : W) (s : nreader) : option (list line_out * W * nreader) :=
  match n with
  | O => Some ([], w, s)
  | S n' =>
      match n_read_line fuel w s with
      | None => None
      | Some (o, w', s') =>
          match n_lines fuel n' w' s' with
          | None => None
          | Some (os, w2, s2) => Some (o :: os, w2, s2)
          end
      end
  end.
End Nest.
Arguments mkNreader {W Z}. Arguments nr_hooks {W Z}. Arguments nr_rest {W Z}. Arguments nr_line {W Z}.
(** [r.line] of NewReader, lineproto/reader.go:150 *)
Definition line_mem : mbuf := mkMbuf [repeat x00 read_buf] 0 read_buf.
(** NewReader, lineproto/reader.go:143-152, with callbacks registered (181-183) *)
Definition new_nreader {W Z} (hs : list (W -> bytes -> nprog W)) (c : script) (delim : byte) : nreader := mkNreader (Z := Z) hs (new_reader c delim) line_mem.
