(** nmdc/message.go and nmdc/writer.go with messages of a program, and SetEncoder at any time.

    NmdcWriter.v has the messages of the package and an encoder that changes between calls
    only.  Here a message is anything with the methods Type and MarshalNMDC, which gets the
    buffer itself and may do anything to it, may fail and may panic; and whatever runs during
    a call (callbacks, messages, or another goroutine, since the encoder is an atomic value)
    may call SetEncoder.

    Simplifications: Type has no effects; callbacks do not panic, and do not write messages
    themselves; what another goroutine does during a call is part of what callbacks and
    messages do to the environment. *)
From Verif Require Import Base NmdcText NmdcMessage LineReader LineWriter.

(** How MarshalNMDC ends, nmdc/message.go:35 *)
Inductive pend := PDone | PFail (e : error) | PPanic.
(** What a call gives the program, nmdc/writer.go:58-84: an error value, or the panic of a message *)
Inductive pout := Returned (e : option error) | Panicked.

Section Program.
Context {W A dst : Type} (dstep : dst -> dop -> dst * list bytes).

(** The state of the program and the encoder of the writer, nmdc/writer.go:28 *)
Definition env : Type := W * codec.
(** The methods of the messages of a program, nmdc/message.go:27-40: Type, and MarshalNMDC from the
    environment and the contents of the buffer to both afterwards *)
Record methods := mkMethods {
  p_type : A -> bytes;
  p_marshal : A -> codec -> env -> bytes -> env * bytes * pend
}.
Variable M : methods.

(** [buf.Bytes()[n-1] = Delimiter], nmdc/message.go:131; None: there is no such byte *)
Definition put_last (n : nat) (b : bytes) : option bytes :=
  match n with
  | O => None
  | S i => Some (firstn i b ++ delimiter :: skipn n b)
  end.
(** MarshalTo, nmdc/message.go:117-136: the environment, the contents of the buffer *)
Definition program_to (enc : codec) (s : env) (buf : bytes) (a : A) : env * bytes * pend :=
  let b := buf ++ msg_head (p_type M a) in
  match p_marshal M a enc s b with
  | (s1, b1, PDone) =>
      if (length b =? length b1)%nat then
        match put_last (length b) b1 with
        | Some b2 => (s1, b2, PDone)
        | None => (s1, b1, PPanic)
        end
      else (s1, b1 ++ [delimiter], PDone)
  | (s1, b1, r) => (s1, b1, r)
  end.
(** Marshal, nmdc/message.go:140-146 *)
Definition program_marshal (enc : codec) (s : env) (a : A) : env * res bytes :=
  match program_to enc s [] a with
  | (s1, b, PDone) => (s1, Ok b)
  | (s1, _, PFail e) => (s1, Err e)
  | (s1, _, PPanic) => (s1, Panic)
  end.

(** A callback of OnMessage, nmdc/writer.go:32,41-43, which gets the message itself *)
Definition phook : Type := env -> A -> (env * A) * hook_res.
(** The writer, nmdc/writer.go:25-35; its encoder is in the environment. *)
Record pwriter := mkPwriter { pw_line : writer env dst; pw_msg : list phook; pw_mbuf : bytes }.

(** Asking the callbacks, nmdc/writer.go:69-73 *)
Fixpoint ask_all (hs : list phook) (s : env) (a : A) : (env * A) * hook_res :=
  match hs with
  | [] => ((s, a), HPass)
  | h :: t => match h s a with
              | ((s1, a1), HPass) => ask_all t s1 a1
              | r => r
              end
  end.

(** The loop of WriteMsg, nmdc/writer.go:68-83 *)
Fixpoint send_each (enc : codec) (s : env) (l : list A) (x : pwriter) : wout (pout * env * pwriter) :=
  match l with
  | [] => WRet (Returned None, s, x)
  | a :: rest =>
      match ask_all (pw_msg x) s a with
      | ((s1, _), HErr e) => WRet (Returned (Some e), s1, x)
      | ((s1, _), HDrop) => WRet (Returned None, s1, x)
      | ((s1, a1), HPass) =>
          match program_to enc s1 [] a1 with
          | (s2, b, PFail e) => WRet (Returned (Some e), s2, mkPwriter (pw_line x) (pw_msg x) b)
          | (s2, b, PPanic) => WRet (Panicked, s2, mkPwriter (pw_line x) (pw_msg x) b)
          | (s2, b, PDone) =>
              match write_line dstep s2 b (pw_line x) with
              | WRet (None, s3, w) => send_each enc s3 rest (mkPwriter w (pw_msg x) b)
              | WRet (Some e, s3, w) => WRet (Returned (Some e), s3, mkPwriter w (pw_msg x) b)
              | WPan => WPan
              | WStuck => WStuck
              end
          end
      end
  end.
(** WriteMsg, nmdc/writer.go:63-84; the encoder is loaded in line 67. *)
Definition send_msgs (s : env) (l : list A) (x : pwriter) : wout (pout * env * pwriter) :=
  match wr_err (pw_line x) with
  | Some e => WRet (Returned (Some e), s, x)
  | None => send_each (snd s) s l x
  end.

(** The calls of a program, nmdc/writer.go:46-84, lineproto/writer.go:141 *)
Inductive pop := PMsgs (l : list A) | PKeep | PFlush | PSetEnc (enc : codec).
(** One call, nmdc/writer.go:52-84, lineproto/writer.go:141-166 *)
Definition program_call (o : pop) (s : env) (x : pwriter) : wout (pout * env * pwriter) :=
  match o with
  | PMsgs l => send_msgs s l x
  | PKeep => match write_line dstep s [delimiter] (pw_line x) with
             | WRet (e, s1, w) => WRet (Returned e, s1, mkPwriter w (pw_msg x) (pw_mbuf x))
             | WPan => WPan
             | WStuck => WStuck
             end
  | PFlush => match flush dstep (pw_line x) with
              | WRet (e, w) => WRet (Returned e, s, mkPwriter w (pw_msg x) (pw_mbuf x))
              | WPan => WPan
              | WStuck => WStuck
              end
  | PSetEnc enc => WRet (Returned None, (fst s, enc), x)
  end.
(** Model only: calls one after another by a program that recovers from the panics of its messages, nmdc/writer.go:52-84 *)
Fixpoint program_calls (os : list pop) (s : env) (x : pwriter) : wout (list pout * env * pwriter) :=
  match os with
  | [] => WRet ([], s, x)
  | o :: r =>
      match program_call o s x with
      | WRet (e, s1, x1) =>
          match program_calls r s1 x1 with
          | WRet (es, s2, x2) => WRet (e :: es, s2, x2)
          | WPan => WPan
          | WStuck => WStuck
          end
      | WPan => WPan
      | WStuck => WStuck
      end
  end.
End Program.
Arguments methods : clear implicits.
Arguments pwriter : clear implicits.
Arguments phook : clear implicits.
Arguments env : clear implicits.
Arguments pop : clear implicits.

(** The messages of the package as such, nmdc/message.go:35: they append their payload (C107) or, after writing something, fail *)
Definition package_methods {W} (junk : msg -> bytes) : methods W msg :=
  mkMethods msg_type (fun m enc s b => match msg_marshal enc m with Ok p => (s, b ++ p, PDone) | Err e => (s, b ++ junk m, PFail e) | Panic => (s, b ++ junk m, PPanic) end).
