(** The packet reader of adc/reader.go with callbacks and messages that use the line reader it embeds.

    adc.Reader embeds lineproto.Reader (adc/reader.go:18-19), so OnKeepAlive, the UnmarshalADC methods of registered
    messages and the callbacks of the line reader may call EnableZlib, Read, SetMaxLine, OnLine and Close.  Here the
    line reader is part of the state which OnKeepAlive and decoding may change in any way; callbacks of the line reader
    are those of LineReentry.v.

    Simplifications: as in AdcForeign.v and LineReentry.v; a call that a callback makes returns; OnKeepAlive is not
    replaced by another function (what it does may depend on the state of the program). *)
From Verif Require Import Base LineReader LineReentry AdcMessage AdcPacket AdcReader Registry AdcForeign.

Section Reentry.
Context {W V Z : Type} (act : Z -> zaction Z) (zinit : Z).
(** The line reader with callbacks that see the state of the program and the registered types, adc/reader.go:18-19, adc/messages.go:11-13 *)
Notation lr := (@lreader (fenv W V) Z).
(** The whole state, adc/reader.go:18-23 *)
Notation env := (fenv (W * lr) V).
(** Unmarshal into a value of a registered type, adc/messages.go:47-50 *)
Variable decode : gotype V -> bytes -> V -> env -> env * res V.
(** OnKeepAlive, adc/reader.go:22 *)
Variable keep : option (env -> env * option error).

(** r.Reader.ReadLine in readPacket, adc/reader.go:84; the list of callbacks of [lr_rest] is not used *)
Definition a_line (fuel : nat) (s : env) : option (line_out * env) :=
  let '((w, L), m) := s in
  let r := lr_rest L in
  match re_read_line act zinit fuel (w, m)
    (mkLreader (lr_hooks L) (mkReader (rd_delim r) (rd_max r) (rd_open r) (rd_conn r) (rd_orig r) (rd_zlib_on r) (rd_zcur r) (rd_z r) (rd_comp r) [])) with
  | None => None
  | Some (o, (w', m'), L') => Some (o, ((w', L'), m'))
  end.

(** The loop of readPacket, adc/reader.go:82-100.  None: out of fuel. *)
Fixpoint a_next (fuel rl : nat) (s : env) : option (res bytes * env) :=
  match fuel with
  | O => None
  | S f =>
      match a_line rl s with
      | None => None
      | Some (LPanic, s1) => Some (Panic, s1)
      | Some (LErr _ e, s1) => Some (Err e, s1)
      | Some (LLine l, s1) =>
          if negb (ends_line l) then Some (Err (EText "invalid packet delimiter"), s1)
          else if (1 <? length l)%nat then Some (Ok l, s1)
          else match keep with
               | None => a_next f rl s1
               | Some k => match k s1 with
                           | (s2, Some e) => Some (Err e, s2)
                           | (s2, None) => a_next f rl s2
                           end
               end
      end
  end.

(** One call, adc/reader.go:26-71, adc/messages.go:26-36.  None: out of fuel. *)
Definition a_call (fuel : nat) (c : fcall V) (s : env) : option (fanswer V * env) :=
  match c with
  | FRegister t v => let '(s1, p) := f_register t v s in Some (FADone p, s1)
  | _ =>
      match a_next fuel fuel s with
      | None => None
      | Some (Ok l, s1) => let '(s2, a) := f_answer decode c l s1 in Some (a, s2)
      | Some (x, s1) => Some (f_failed c x, s1)
      end
  end.
(** Model only: calls one after the other, panics recovered (adc/reader.go:26-71) *)
Fixpoint a_calls (fuel : nat) (cs : list (fcall V)) (s : env) : option (list (fanswer V) * env) :=
  match cs with
  | [] => Some ([], s)
  | c :: r =>
      match a_call fuel c s with
      | None => None
      | Some (a, s1) => match a_calls fuel r s1 with None => None | Some (os, s2) => Some (a :: os, s2) end
      end
  end.
End Reentry.
