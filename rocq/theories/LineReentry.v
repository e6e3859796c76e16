(** The line reader of lineproto/reader.go with line callbacks that call the reader they belong to.

    LineReader.v has callbacks that only change the state of the program.  Here a callback is a program
    that may call EnableZlib, Read, SetMaxLine, OnLine and Close of the reader before it returns or
    panics; this is how a program switches on compression when a line asks for it.

    Simplifications: a callback does not call ReadLine itself (it would overwrite the line it was given,
    both are in [r.line], see LineNest.v); Binary is seen as the Read calls it makes; a callback sees the line as a value. *)
From Verif Require Import Base LineReader.

(** What a line callback does, lineproto/reader.go:181-183,213-222: it returns its new state and its
    verdict, panics, or calls a method of the reader and goes on depending on the result (a panic of the
    method can be recovered, so it is a result). *)
Inductive hprog (W : Type) :=
| PReturn (w : W) (v : hook_res)
| PPanic (w : W)
| PZlib (k : rout unit -> hprog W)
| PRead (n : nat) (k : rout (bytes * option error) -> hprog W)
| PMax (sz : BinInt.Z) (p : hprog W)
| PHook (h : W -> bytes -> hprog W) (p : hprog W)
| PClose (p : hprog W).
Arguments PReturn {W}. Arguments PPanic {W}. Arguments PZlib {W}. Arguments PRead {W}.
Arguments PMax {W}. Arguments PHook {W}. Arguments PClose {W}.

Section Reentry.
Context {W Z : Type} (act : Z -> zaction Z) (zinit : Z).
(** Model only: a callback, lineproto/reader.go:139 *)
Notation rhook := (W -> bytes -> hprog W).

(** Reader, lineproto/reader.go:125-140: [r.onLine] and the other fields (the list of callbacks of
    [lr_rest] is not used) *)
Record lreader := mkLreader { lr_hooks : list rhook; lr_rest : reader unit Z }.

(** A callback runs, lineproto/reader.go:215: [None] as verdict is a panic.  OnLine appends
    (line 182), Close forgets all callbacks (line 166). *)
Fixpoint run_prog (fuel : nat) (p : hprog W) (s : lreader) : option (W * option hook_res * lreader) :=
  match p with
  | PReturn w v => Some (w, Some v, s)
  | PPanic w => Some (w, None, s)
  | PZlib k => match enable_zlib act zinit fuel (lr_rest s) with
               | None => None
               | Some (o, r) => run_prog fuel (k o) (mkLreader (lr_hooks s) r)
               end
  | PRead n k => match reader_read act fuel n (lr_rest s) with
                 | None => None
                 | Some (o, r) => run_prog fuel (k o) (mkLreader (lr_hooks s) r)
                 end
  | PMax sz q => run_prog fuel q (mkLreader (lr_hooks s) (set_max_line sz (lr_rest s)))
  | PHook h q => run_prog fuel q (mkLreader (lr_hooks s ++ [h]) (lr_rest s))
  | PClose q => run_prog fuel q (mkLreader [] (close_reader (lr_rest s)))
  end.

(** The loop over the callbacks, lineproto/reader.go:214-222: [range] has evaluated [r.onLine] before
    the first of them runs *)
Fixpoint run_progs (fuel : nat) (hs : list rhook) (w : W) (l : bytes) (s : lreader) : option (W * option hook_res * lreader) :=
  match hs with
  | [] => Some (w, Some HPass, s)
  | h :: hs' => match run_prog fuel (h w l) s with
                | Some (w', Some HPass, s') => run_progs fuel hs' w' l s'
                | x => x
                end
  end.

(** The loop of ReadLine, lineproto/reader.go:194-225.  A callback may have closed the reader: then
    [r.cur] is nil and Scan (line 198) panics. *)
Fixpoint re_loop (fuel : nat) (w : W) (line : bytes) (s : lreader) : option (line_out * W * lreader) :=
  match fuel with
  | O => None
  | S f =>
      let r := lr_rest s in
      if ((0 <? rd_max r) && (rd_max r <=? BinInt.Z.of_nat (length line)))%Z%bool
      then Some (LErr None err_exhausted, w, s)
      else if negb (rd_open r) then Some (LPanic, w, s)
      else
        match scan act f r with
        | None => None
        | Some (RPanic, r') => Some (LPanic, w, mkLreader (lr_hooks s) r')
        | Some (RErr e, r') =>
            if (is_eof e && rd_zlib_on r')%bool
            then re_loop f w line (mkLreader (lr_hooks s) (with_mode false false r'))
            else Some (LErr (Some line) e, w, mkLreader (lr_hooks s) r')
        | Some (ROk (pref, more), r') =>
            let line' := line ++ pref in
            let s' := mkLreader (lr_hooks s) r' in
            if more then re_loop f w line' s'
            else
              match run_progs f (lr_hooks s) w line' s' with
              | None => None
              | Some (w', Some HPass, s2) => Some (LLine line', w', s2)
              | Some (w', Some HDrop, s2) => re_loop f w' [] s2
              | Some (w', Some (HErr e), s2) => Some (LErr None e, w', s2)
              | Some (w', None, s2) => Some (LPanic, w', s2)
              end
        end
  end.

(** ReadLine, lineproto/reader.go:188-226 *)
Definition re_read_line (fuel : nat) (w : W) (s : lreader) : option (line_out * W * lreader) :=
  if rd_open (lr_rest s) then re_loop fuel w [] s else Some (LErr None err_closed, w, s).

(** Model only: [n] calls of ReadLine (lineproto/reader.go:188) *)
Fixpoint re_lines (fuel n : nat) (w : W) (s : lreader) : option (list line_out * W * lreader) :=
  match n with
  | O => Some ([], w, s)
  | S n' =>
      match re_read_line fuel w s with
      | None => None
      | Some (o, w', s') =>
          match re_lines fuel n' w' s' with
          | None => None
          | Some (os, w2, s2) => Some (o :: os, w2, s2)
          end
      end
  end.

(** NewReader, lineproto/reader.go:143-152 *)
Definition new_lreader (c : script) (delim : byte) : lreader := mkLreader [] (new_reader c delim).
(** OnLine, lineproto/reader.go:181-183 *)
Definition re_on_line (h : rhook) (s : lreader) : lreader := mkLreader (lr_hooks s ++ [h]) (lr_rest s).
End Reentry.
Arguments mkLreader {W Z}. Arguments lr_hooks {W Z}. Arguments lr_rest {W Z}. Arguments new_lreader {W Z}. Arguments re_on_line {W Z}.
