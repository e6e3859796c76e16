(** The message reader of nmdc/reader.go with callbacks that use the line reader it embeds.

    nmdc.Reader embeds lineproto.Reader (nmdc/reader.go:52-53), so the callbacks of the message reader, the
    UnmarshalNMDC methods of messages and the callbacks of the line reader may call EnableZlib, Read,
    SetMaxLine, OnLine and Close.  Here the line reader is part of the state which callbacks of the message
    reader and messages may change in any way; callbacks of the line reader are those of LineReentry.v.

    Simplifications: as in NmdcForeign.v and LineReentry.v; a call that a callback makes returns. *)
From Verif Require Import Base NmdcText NmdcChat NmdcMessage LineReader LineReentry NmdcReader NmdcProgram NmdcForeign.

Section Reentry.
Context {W A Z : Type} (act : Z -> zaction Z) (zinit : Z).
(** The line reader with callbacks that see the state of the program and the decoder, nmdc/reader.go:52-57 *)
Notation lr := (@lreader (env W) Z).
Variable M : rmethods (W * lr) A.

(** Model only: the list of callbacks of [lr_rest] is not used (lineproto/reader.go:139), so it is empty *)
Definition lr_tidy (L : lr) : lr :=
  let r := lr_rest L in
  mkLreader (lr_hooks L) (mkReader (rd_delim r) (rd_max r) (rd_open r) (rd_conn r) (rd_orig r) (rd_zlib_on r) (rd_zcur r) (rd_z r) (rd_comp r) []).
(** r.ReadLine in readMsgTo, nmdc/reader.go:154 *)
Definition n_line (fuel : nat) (s : env (W * lr)) : option (line_out * env (W * lr)) :=
  let '((w, L), dec) := s in
  match re_read_line act zinit fuel (w, dec) (lr_tidy L) with
  | None => None
  | Some (o, (w', dec'), L') => Some (o, ((w', L'), dec'))
  end.

(** The loop of readMsgTo, nmdc/reader.go:150-328.  None: out of fuel. *)
Fixpoint n_read (fuel rl : nat) (c : fcfg (W * lr) A) (x : fstate (W * lr) A) : option (lstep * fstate (W * lr) A) :=
  match fuel with
  | O => None
  | S f =>
      match n_line rl (fs_env x) with
      | None => None
      | Some (LPanic, s) => Some (LCrash, f_env s x)
      | Some (LErr _ e, s) => Some (LReturn (Some e), f_env s x)
      | Some (LLine l, s) =>
          match f_line M c l (f_env s x) with
          | (LSkip, x') => n_read f rl c x'
          | (y, x') => Some (y, x')
          end
      end
  end.

(** One call, nmdc/reader.go:112-149: ReadMsg, ReadMsgTo, ReadMsgToAny (which panics without messages),
    SetDecoder *)
Definition n_call (fuel : nat) (c : fcfg (W * lr) A) (k : fcall A) (s : env (W * lr)) : option (fanswer A * env (W * lr)) :=
  let run o l := n_read fuel fuel c (mkFs s (snd s) o l) in
  match k with
  | FNew => match run FNil [] with
            | None => None
            | Some (y, x) => Some (FRNew (match y with LReturn None => Ok (f_msg x) | LReturn (Some e) => Err e | _ => Panic end), fs_env x)
            end
  | FInto a => match run (FOwn a) [] with
               | None => None
               | Some (y, x) => Some (FRInto (match y with LReturn None => Ok tt | LReturn (Some e) => Err e | _ => Panic end) (match f_msg x with Some a' => a' | None => a end), fs_env x)
               end
  | FAny [] => Some (FRAny Panic [], s)
  | FAny l => match run FNil l with
              | None => None
              | Some (y, x) => Some (FRAny (match y with LReturn None => Ok (match fs_slot x with FAllowed i => Some i | _ => None end) | LReturn (Some e) => Err e | _ => Panic end) (fs_allowed x), fs_env x)
              end
  | FSetDec dec => Some (FRSet, (fst s, dec))
  end.
(** Model only: calls one after another, by a program that recovers from panics, nmdc/reader.go:112-149 *)
Fixpoint n_calls (fuel : nat) (c : fcfg (W * lr) A) (ks : list (fcall A)) (s : env (W * lr)) : option (list (fanswer A) * env (W * lr)) :=
  match ks with
  | [] => Some ([], s)
  | k :: ks' =>
      match n_call fuel c k s with
      | None => None
      | Some (o, s1) => match n_calls fuel c ks' s1 with None => None | Some (os, s2) => Some (o :: os, s2) end
      end
  end.
End Reentry.
