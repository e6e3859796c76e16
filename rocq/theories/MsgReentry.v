(** The message writers of nmdc/writer.go and adc/writer.go with callbacks that write messages.

    Both encode a message in the buffer [mbuf] and give its bytes to WriteLine of the line writer.  The line is a slice of the memory of
    [mbuf].  A line callback that writes another message uses the same memory while the line is not yet written.

    Simplifications: callbacks call WriteMsg (WritePacket) for one message, WriteLine, Flush and Err; other calls of the line writer are
    in WriterReentry.v.  A callback gets the message as a value.  The encoder is not changed (C136).  A panic ends the program. *)
From Verif Require Import Base LineReader LineWriter WriterReentry.

(** What encoding a message does to its bytes.Buffer: Write, WriteString and WriteByte, Grow, and the assignment to the last byte,
    nmdc/message.go:118-136, adc/packets.go:158-180 *)
Inductive bop := BPut (p : bytes) | BGrow (n : nat) | BLast (c : byte).

Section Buffer.
(** The capacity that bytes.Buffer chooses if [need] bytes do not fit in [cap], behind nmdc/writer.go:34 and adc/writer.go:34; never
    less than [need] (see [b_room]) *)
Variable room : nat -> nat -> nat.

(** bytes.Buffer, nmdc/writer.go:34, adc/writer.go:34: the arrays it has used so far (all bytes up to the capacity), which of them it
    uses now, and the length of its contents.  The read position is 0: nothing is read from [mbuf]. *)
Record mbuf := mkMbuf { mb_heap : list bytes; mb_at : nat; mb_len : nat }.
(** The zero value, nmdc/writer.go:20-22, adc/writer.go:17-19 *)
Definition no_mbuf : mbuf := mkMbuf [[]] 0 0.
(** Model only: array [i], behind nmdc/writer.go:34 *)
Definition b_array (i : nat) (b : mbuf) : bytes := nth i (mb_heap b) [].
(** Model only: the first [n] bytes of array [i], the slice returned by Bytes() of nmdc/writer.go:79 and adc/writer.go:49 *)
Definition b_slice (i n : nat) (b : mbuf) : bytes := firstn n (b_array i b).
(** Model only: [p] at position [i] of an array, nmdc/message.go:118-136 *)
Definition b_over (i : nat) (p a : bytes) : bytes := firstn i a ++ p ++ skipn (i + length p) a.
(** Model only: another contents of array [i], nmdc/message.go:118-136 *)
Fixpoint b_set (i : nat) (a : bytes) (h : list bytes) : list bytes :=
  match i, h with
  | O, _ :: t => a :: t
  | S i', x :: t => x :: b_set i' a t
  | _, [] => []
  end.
(** Reset, nmdc/writer.go:74, adc/writer.go:44: the array is kept *)
Definition b_reset (b : mbuf) : mbuf := mkMbuf (mb_heap b) (mb_at b) 0.
(** Model only: the new capacity, behind nmdc/writer.go:34 *)
Definition b_room (cap need : nat) : nat := Nat.max need (room cap need).
(** bytes.Buffer.grow behind nmdc/message.go:118-136 and adc/packets.go:158-180: a new array if [n] more bytes do not fit *)
Definition b_grow (n : nat) (b : mbuf) : mbuf :=
  let a := b_array (mb_at b) b in
  let need := (mb_len b + n)%nat in
  if (need <=? length a)%nat then b
  else mkMbuf (mb_heap b ++ [firstn (mb_len b) a ++ repeat x00 (b_room (length a) need - mb_len b)]) (length (mb_heap b)) (mb_len b).
(** One operation of the encoder, nmdc/message.go:118-136, adc/packets.go:158-180.  None: the panic of an assignment to index -1. *)
Definition b_do (o : bop) (b : mbuf) : option mbuf :=
  match o with
  | BGrow n => Some (b_grow n b)
  | BPut p => let b1 := b_grow (length p) b in
              Some (mkMbuf (b_set (mb_at b1) (b_over (mb_len b1) p (b_array (mb_at b1) b1)) (mb_heap b1)) (mb_at b1) (mb_len b1 + length p))
  | BLast c => match mb_len b with
               | O => None
               | S n => Some (mkMbuf (b_set (mb_at b) (b_over n [c] (b_array (mb_at b) b)) (mb_heap b)) (mb_at b) (mb_len b))
               end
  end.
(** Model only: all of them (nmdc/message.go:118-136, adc/packets.go:158-180) *)
Fixpoint b_all (os : list bop) (b : mbuf) : option mbuf :=
  match os with
  | [] => Some b
  | o :: os' => match b_do o b with Some b' => b_all os' b' | None => None end
  end.
End Buffer.

(** MarshalTo of nmdc/message.go:118-136 for a message with the type [typ] whose MarshalNMDC writes [ps] *)
Definition nmdc_ops (typ : bytes) (ps : list bytes) : list bop :=
  match typ with [] => [] | _ => [BGrow (1 + length typ + 2); BPut (B "$"); BPut typ; BPut (B " ")] end ++ map BPut ps ++
  [match concat ps with [] => BLast "|" | _ => BPut (B "|") end].
(** MarshalPacketADC of adc/packets.go:158-180,288-313 and the others: [b] is the beginning up to the payload, [ps] are the writes of
    Marshal *)
Definition adc_ops (b : bytes) (ps : list bytes) : list bop :=
  BPut b :: map BPut ps ++ [match concat ps with [] => BLast x0a | _ => BPut [x0a] end].

(** What a callback does, nmdc/writer.go:31-33 and lineproto/writer.go:36-38: it returns its state and its verdict, panics, or calls
    WriteMsg or WritePacket with one message (nmdc/writer.go:63, adc/writer.go:43), WriteLine with a slice of its own
    (lineproto/writer.go:183), Flush or Err *)
Inductive mprog (W M : Type) :=
| MReturn (w : W) (v : hook_res)
| MPan
| MMsg (w : W) (m : M) (k : option error -> W -> mprog W M)
| MLine (w : W) (p : bytes) (k : option error -> W -> mprog W M)
| MFlush (k : option error -> mprog W M)
| MErr (k : option error -> mprog W M).
Arguments MReturn {W M}. Arguments MPan {W M}. Arguments MMsg {W M}. Arguments MLine {W M}. Arguments MFlush {W M}. Arguments MErr {W M}.

Section Msg.
Context {W M dst : Type} (dstep : dst -> dop -> dst * list bytes) (room : nat -> nat -> nat).
(** Encoding a message, MarshalTo of nmdc/message.go:118 or MarshalPacketADC of adc/packets.go:26: what it does to the buffer, and its
    error *)
Variable enc : M -> list bop * option error.
(** WriteMsg looks at Err() first, nmdc/writer.go:64-66; WritePacket does not, adc/writer.go:43-50 *)
Variable early : bool.

(** Writer of nmdc/writer.go:25-35 and adc/writer.go:31-35: the line writer and its callbacks (lineproto/writer.go:36-38), the message
    callbacks (nmdc only) and [mbuf] *)
Record mwriter := mkMwriter {
  mw_line : writer unit dst;
  mw_lhooks : list (W -> bytes -> mprog W M);
  mw_mhooks : list (W -> M -> mprog W M);
  mw_buf : mbuf
}.
(** Model only: the line given to WriteLine: a slice of the caller, or the first bytes of an array of [mbuf] (nmdc/writer.go:59,79,
    adc/writer.go:40,49) *)
Inductive src := Own (p : bytes) | Shared (i n : nat).
(** Model only: the bytes of the line at this time, lineproto/writer.go:188,203 *)
Definition bytes_of (s : src) (x : mwriter) : bytes :=
  match s with Own p => p | Shared i n => b_slice i n (mw_buf x) end.
(** Model only: a call of WriteLine (lineproto/writer.go:183) or of WriteMsg (nmdc/writer.go:63, adc/writer.go:43) *)
Inductive task := TLine (s : src) | TMsg (m : M).
(** Field update of the line writer (nmdc/writer.go:26, adc/writer.go:32) *)
Definition mw_with (l : writer unit dst) (x : mwriter) : mwriter := mkMwriter l (mw_lhooks x) (mw_mhooks x) (mw_buf x).
(** Field update of the buffer (nmdc/writer.go:34, adc/writer.go:34) *)
Definition mw_mem (b : mbuf) (x : mwriter) : mwriter := mkMwriter (mw_line x) (mw_lhooks x) (mw_mhooks x) b.

Section Run.
(** The calls of a callback, lineproto/writer.go:183, nmdc/writer.go:63, adc/writer.go:43 *)
Variable again : W -> task -> mwriter -> option (wout (option error * W * mwriter)).
(** A callback runs, lineproto/writer.go:188, nmdc/writer.go:70 *)
Fixpoint run_mprog (p : mprog W M) (x : mwriter) : option (wout (W * hook_res * mwriter)) :=
  match p with
  | MReturn w v => Some (WRet (w, v, x))
  | MPan => Some WPan
  | MMsg w m k => match again w (TMsg m) x with
                  | Some (WRet (e, w', x')) => run_mprog (k e w') x'
                  | Some WPan => Some WPan
                  | Some WStuck | None => None
                  end
  | MLine w d k => match again w (TLine (Own d)) x with
                   | Some (WRet (e, w', x')) => run_mprog (k e w') x'
                   | Some WPan => Some WPan
                   | Some WStuck | None => None
                   end
  | MFlush k => match flush dstep (mw_line x) with
                | WRet (e, l) => run_mprog (k e) (mw_with l x)
                | WPan => Some WPan
                | WStuck => None
                end
  | MErr k => run_mprog (k (wr_err (mw_line x))) x
  end.
(** The loops over the callbacks, lineproto/writer.go:187-194 and nmdc/writer.go:69-73: [arg] is the line as it is when the callback is
    called, or the message *)
Fixpoint run_mprogs {A} (arg : mwriter -> A) (hs : list (W -> A -> mprog W M)) (w : W) (x : mwriter) : option (wout (W * hook_res * mwriter)) :=
  match hs with
  | [] => Some (WRet (w, HPass, x))
  | h :: hs' => match run_mprog (h w (arg x)) x with
                | Some (WRet (w', HPass, x')) => run_mprogs arg hs' w' x'
                | r => r
                end
  end.
End Run.

(** WriteLine (lineproto/writer.go:183-209) and WriteMsg with one message (nmdc/writer.go:63-84) or WritePacket (adc/writer.go:43-50).
    None: out of fuel. *)
Fixpoint m_do (fuel : nat) (w : W) (t : task) (x : mwriter) : option (wout (option error * W * mwriter)) :=
  match fuel with
  | O => None
  | S f =>
      match t with
      | TLine s =>
          match wr_err (mw_line x) with
          | Some e => Some (WRet (Some e, w, x))
          | None =>
              match run_mprogs (m_do f) (bytes_of s) (mw_lhooks x) w x with
              | Some (WRet (w', HErr e, x')) => Some (WRet (Some e, w', mw_with (set_error e (mw_line x')) x'))
              | Some (WRet (w', HDrop, x')) => Some (WRet (None, w', x'))
              | Some (WRet (w', HPass, x')) =>
                  match put_line dstep (bytes_of s x') (mw_line x') with
                  | WRet (e, l) => Some (WRet (e, w', mw_with l x'))
                  | WPan => Some WPan
                  | WStuck => None
                  end
              | Some WPan => Some WPan
              | Some WStuck | None => None
              end
          end
      | TMsg m =>
          match (if early then wr_err (mw_line x) else None) with
          | Some e => Some (WRet (Some e, w, x))
          | None =>
              match run_mprogs (m_do f) (fun _ => m) (mw_mhooks x) w x with
              | Some (WRet (w', HErr e, x')) => Some (WRet (Some e, w', x'))
              | Some (WRet (w', HDrop, x')) => Some (WRet (None, w', x'))
              | Some (WRet (w', HPass, x')) =>
                  match b_all room (fst (enc m)) (b_reset (mw_buf x')) with
                  | None => Some WPan
                  | Some b =>
                      match snd (enc m) with
                      | Some e => Some (WRet (Some e, w', mw_mem b x'))
                      | None => m_do f w' (TLine (Shared (mb_at b) (mb_len b))) (mw_mem b x')
                      end
                  end
              | Some WPan => Some WPan
              | Some WStuck | None => None
              end
          end
      end
  end.
End Msg.
Arguments mkMwriter {W M dst}. Arguments mw_line {W M dst}. Arguments mw_lhooks {W M dst}. Arguments mw_mhooks {W M dst}. Arguments mw_buf {W M dst}.
Arguments TLine {M}. Arguments TMsg {M}. Arguments bytes_of {W M dst}. Arguments mw_with {W M dst}. Arguments mw_mem {W M dst}.
