(** The message reader of nmdc/reader.go with messages of a program, and SetDecoder at any time.

    NmdcReader.v has the messages of the package and a decoder that changes between calls only.
    Here a message is anything with the methods Type and UnmarshalNMDC, which may do anything to
    the message and the state of the program, may fail and may panic; NewMessage may give messages
    the program has registered; and whatever runs during a call may call SetDecoder (the decoder is
    an atomic value, so this may also be another goroutine).

    Simplifications: Type has no effects; callbacks do not panic, see the arguments as values and
    do not call ReadMsg themselves; the messages passed to ReadMsgToAny are distinct; what another
    goroutine does during a call is part of what callbacks and messages do to the environment. *)
From Verif Require Import Base Utf8 NmdcText NmdcChat NmdcMessage LineReader NmdcReader NmdcProgram.

(** What the type assertions of nmdc/reader.go:212,232,260-261,281 tell about a message *)
Inductive fkind := KRaw | KChat | KOther.

Section Foreign.
Context {W A : Type}.

(** The methods of the messages of a program, nmdc/message.go:27-40: Type, the Go type as far as it
    matters, and UnmarshalNMDC from the environment (the state of the program and the decoder stored
    in the Reader, nmdc/reader.go:57) to the environment, the message and the result; NewMessage,
    nmdc/message.go:60-66, and the new chat message of nmdc/reader.go:279 *)
Record rmethods := mkRmethods {
  r_type : A -> bytes;
  r_kind : A -> fkind;
  r_unmarshal : A -> codec -> env W -> bytes -> env W * A * res unit;
  r_new : bytes -> A;
  r_chat : A
}.
Variable M : rmethods.

(** The callbacks and the limit of a Reader, nmdc/reader.go:52-81 *)
Record fcfg := mkFcfg {
  fc_max_cmd : Z;
  fc_keep_alive : option (env W -> env W * option error);
  fc_raw : list (env W -> option bytes -> bytes -> env W * hook_res);
  fc_unknown : option (env W -> bytes -> env W * (codec + error));
  fc_unmarshal_err : option (env W -> bytes -> error -> env W * (bool * option error));
  fc_msg : list (env W * A -> (env W * A) * hook_res)
}.

(** A message used as a pointer of the caller, nmdc/reader.go:117-146: nil, a message of its own, or
    the i-th of the messages passed to ReadMsgToAny *)
Inductive fslot := FNil | FOwn (a : A) | FAllowed (i : nat).
(** The state of readMsgTo between two lines, nmdc/reader.go:151-152: the environment, the local
    decoder, [*ptr] and the messages [allowed] *)
Record fstate := mkFs { fs_env : env W; fs_dec : codec; fs_slot : fslot; fs_allowed : list A }.

(** Model only: a new environment, nmdc/reader.go:169,189,251,294,314,321 *)
Definition f_env (s : env W) (x : fstate) : fstate := mkFs s (fs_dec x) (fs_slot x) (fs_allowed x).
(** *ptr = out, nmdc/reader.go:215,231,265,280 *)
Definition f_slot (o : fslot) (x : fstate) : fstate := mkFs (fs_env x) (fs_dec x) o (fs_allowed x).
(** The message behind a slot, nmdc/reader.go:177 *)
Definition f_msg (x : fstate) : option A :=
  match fs_slot x with FNil => None | FOwn a => Some a | FAllowed i => nth_error (fs_allowed x) i end.
(** Model only: write through *ptr, nmdc/reader.go:291,307,321 *)
Definition f_put (a : A) (x : fstate) : fstate :=
  match fs_slot x with
  | FAllowed i => mkFs (fs_env x) (fs_dec x) (fs_slot x) (set_nth i a (fs_allowed x))
  | _ => f_slot (FOwn a) x
  end.

(** The type assertion to *RawMessage, nmdc/reader.go:212,260 *)
Definition f_raw (a : A) : bool := match r_kind M a with KRaw => true | _ => false end.
(** The type assertion to *ChatMessage, nmdc/reader.go:232,261,281 *)
Definition f_chat (a : A) : bool := match r_kind M a with KChat => true | _ => false end.

(** The message hook loop, nmdc/reader.go:320-326 *)
Fixpoint f_msgs (hs : list (env W * A -> (env W * A) * hook_res)) (p : env W * A) : (env W * A) * hook_res :=
  match hs with
  | [] => (p, HPass)
  | h :: hs' => match h p with (p1, HPass) => f_msgs hs' p1 | x => x end
  end.

(** Choosing [out], nmdc/reader.go:208-246 for commands (cmd = Some typ) and 257-289 for chat (None) *)
Definition f_choose (cmd : option bytes) (args : bytes) (x : fstate) : error + fstate :=
  let typ := match cmd with Some t => t | None => [] end in
  let accept a := match cmd with
                  | Some t => (f_raw a || bytes_eqb (r_type M a) t)%bool
                  | None => (f_raw a || f_chat a)%bool
                  end in
  let x1 := match fs_allowed x with
            | [] => inr x
            | a0 :: _ => match first_index accept (fs_allowed x) with
                         | Some i => inr (f_slot (FAllowed i) x)
                         | None => inl (EUnexpectedCmd (r_type M a0) typ args)
                         end
            end in
  match x1 with
  | inl e => inl e
  | inr x1 =>
      match f_msg x1, cmd with
      | None, Some t => inr (f_slot (FOwn (r_new M t)) x1)
      | None, None => inr (f_slot (FOwn (r_chat M)) x1)
      | Some a, Some t =>
          if f_chat a then inl (EUnexpectedCmd [] typ args)
          else if bytes_eqb (r_type M a) t then inr x1 else inl (EUnexpectedCmd (r_type M a) typ args)
      | Some a, None => if f_chat a then inr x1 else inl (EUnexpectedCmd (r_type M a) typ args)
      end
  end.

(** Decoding, nmdc/reader.go:291-309: [inl] is the error of OnUnknownEncoding.  A decoder it gives is
    stored in the Reader (line 305). *)
Definition f_decode (c : fcfg) (args : bytes) (x : fstate) : fstate * (error + res unit) :=
  match f_msg x with
  | None => (x, inr Panic)
  | Some a =>
      let '(s1, a1, r1) := r_unmarshal M a (fs_dec x) (fs_env x) args in
      let x1 := f_put a1 (f_env s1 x) in
      match fc_unknown c, r1 with
      | Some f, Err (EUnknownEnc text) =>
          match f s1 text with
          | (s2, inr e) => (f_env s2 x1, inl e)
          | (s2, inl dec) =>
              let s3 := match dec with None => s2 | Some _ => (fst s2, dec) end in
              let args2 := match dec with None => to_valid args | Some _ => args end in
              let '(s4, a2, r2) := r_unmarshal M a1 dec s3 args2 in
              (f_put a2 (mkFs s4 dec (fs_slot x1) (fs_allowed x1)), inr r2)
          end
      | _, _ => (x1, inr r1)
      end
  end.

(** From the choice of [out] to the end of the loop body, nmdc/reader.go:208-246,257-327 *)
Definition f_accept (c : fcfg) (orig : bytes) (cmd : option bytes) (args : bytes) (x : fstate) : lstep * fstate :=
  match f_choose cmd args x with
  | inl e => (LReturn (Some e), x)
  | inr x =>
      match f_decode c args x with
      | (x, inl e) => (LReturn (Some e), x)
      | (x, inr Panic) => (LCrash, x)
      | (x, inr (Err e)) =>
          match fc_unmarshal_err c with
          | None => (LReturn (Some e), x)
          | Some f => match f (fs_env x) orig e with
                      | (s, (false, _)) => (LSkip, f_env s x)
                      | (s, (true, r)) => (LReturn r, f_env s x)
                      end
          end
      | (x, inr (Ok _)) =>
          match f_msg x with
          | None => (LCrash, x)
          | Some a => match f_msgs (fc_msg c) (fs_env x, a) with
                      | ((s, a'), HPass) => (LReturn None, f_env s (f_put a' x))
                      | ((s, a'), HDrop) => (LSkip, f_env s (f_put a' x))
                      | ((s, a'), HErr e) => (LReturn (Some e), f_env s (f_put a' x))
                      end
          end
      end
  end.

(** The body of the loop for one line, nmdc/reader.go:155-327 *)
Definition f_line (c : fcfg) (line : bytes) (x : fstate) : lstep * fstate :=
  if negb (match line with [] => false | _ => beq (last line x00) delimiter end) then (LReturn (Some err_no_delim), x)
  else if contains_byte x00 line then (LReturn (Some err_null), x)
  else
    match removelast line with
    | [] =>
        match fc_keep_alive c with
        | None => (LSkip, x)
        | Some f => match f (fs_env x) with
                    | (s, Some e) => (LReturn (Some e), f_env s x)
                    | (s, None) => (LSkip, f_env s x)
                    end
        end
    | b :: l =>
        if beq b "$"%byte then
          let (cmd, args) := match cut " "%byte l with Some (a, r) => (a, r) | None => (l, []) end in
          match run_raw (fc_raw c) (fs_env x) (Some cmd) args with
          | (s, HErr e) => (LReturn (Some e), f_env s x)
          | (s, HDrop) => (LSkip, f_env s x)
          | (s, HPass) =>
              match cmd with
              | [] => (LReturn (Some err_cmd_empty), f_env s x)
              | _ =>
                  if (fc_max_cmd c <? Z.of_nat (length cmd))%Z then (LReturn (Some err_cmd_long), f_env s x)
                  else if negb (is_ascii_name cmd) then (LReturn (Some err_cmd_ascii), f_env s x)
                  else f_accept c (removelast line) (Some cmd) args (f_env s x)
              end
          end
        else
          match run_raw (fc_raw c) (fs_env x) None (removelast line) with
          | (s, HErr e) => (LReturn (Some e), f_env s x)
          | (s, HDrop) => (LSkip, f_env s x)
          | (s, HPass) => f_accept c (removelast line) None (removelast line) (f_env s x)
          end
    end.

(** The calls of a program, nmdc/reader.go:112-146 *)
Inductive fcall := FNew | FInto (a : A) | FAny (l : list A) | FSetDec (dec : codec).
(** What they give back, with the arguments afterwards.  FNew: the message (Ok None would be (nil,
    nil)); FAny: the index of the returned message; nmdc/reader.go:112-146 *)
Inductive fanswer := FRNew (r : res (option A)) | FRInto (r : res unit) (a : A) | FRAny (r : res (option nat)) (l : list A) | FRSet.

Section Loop.
Context {zstate : Type} (act : zstate -> zaction zstate).
(** The loop of readMsgTo, nmdc/reader.go:150-328.  None: out of fuel. *)
Fixpoint f_read (fuel rl : nat) (c : fcfg) (x : fstate) (r : reader (env W) zstate) : option (lstep * fstate * reader (env W) zstate) :=
  match fuel with
  | O => None
  | S f =>
      match read_line act rl (fs_env x) r with
      | None => None
      | Some (LPanic, s, r') => Some (LCrash, f_env s x, r')
      | Some (LErr _ e, s, r') => Some (LReturn (Some e), f_env s x, r')
      | Some (LLine l, s, r') =>
          match f_line c l (f_env s x) with
          | (LSkip, x') => f_read f rl c x' r'
          | (y, x') => Some (y, x', r')
          end
      end
  end.

(** One call, nmdc/reader.go:112-149: ReadMsg, ReadMsgTo, ReadMsgToAny (which panics without
    messages), SetDecoder.  The decoder is loaded in line 149. *)
Definition f_call (fuel : nat) (c : fcfg) (k : fcall) (s : env W) (r : reader (env W) zstate) : option (fanswer * env W * reader (env W) zstate) :=
  let run o l := f_read fuel fuel c (mkFs s (snd s) o l) r in
  match k with
  | FNew => match run FNil [] with
            | None => None
            | Some (y, x, r') => Some (FRNew (match y with LReturn None => Ok (f_msg x) | LReturn (Some e) => Err e | _ => Panic end), fs_env x, r')
            end
  | FInto a => match run (FOwn a) [] with
               | None => None
               | Some (y, x, r') => Some (FRInto (match y with LReturn None => Ok tt | LReturn (Some e) => Err e | _ => Panic end) (match f_msg x with Some a' => a' | None => a end), fs_env x, r')
               end
  | FAny [] => Some (FRAny Panic [], s, r)
  | FAny l => match run FNil l with
              | None => None
              | Some (y, x, r') => Some (FRAny (match y with LReturn None => Ok (match fs_slot x with FAllowed i => Some i | _ => None end) | LReturn (Some e) => Err e | _ => Panic end) (fs_allowed x), fs_env x, r')
              end
  | FSetDec dec => Some (FRSet, (fst s, dec), r)
  end.
(** Model only: calls one after another, by a program that recovers from panics, nmdc/reader.go:112-149 *)
Fixpoint f_calls (fuel : nat) (c : fcfg) (ks : list fcall) (s : env W) (r : reader (env W) zstate) : option (list fanswer * env W * reader (env W) zstate) :=
  match ks with
  | [] => Some ([], s, r)
  | k :: ks' =>
      match f_call fuel c k s r with
      | None => None
      | Some (o, s1, r1) => match f_calls fuel c ks' s1 r1 with None => None | Some (os, s2, r2) => Some (o :: os, s2, r2) end
      end
  end.
End Loop.
End Foreign.
Arguments rmethods : clear implicits.
Arguments fcfg : clear implicits.
Arguments fstate : clear implicits.
Arguments fslot : clear implicits.
Arguments fcall : clear implicits.
Arguments fanswer : clear implicits.

(** The messages of the package as such, nmdc/message.go:27-40,60-66, nmdc/reader.go:212,232,260-261,279-281 *)
Definition package_rmethods {W} : rmethods W msg :=
  mkRmethods msg_type (fun m => match m with MRaw _ _ => KRaw | MChat _ => KChat | _ => KOther end)
    (fun m dec s args => (s, fst (msg_unmarshal dec m args), snd (msg_unmarshal dec m args))) new_message (MChat chat0).
(** Callbacks that do not call SetDecoder, nmdc/reader.go:52-81 *)
Definition unaware {W X Y} (f : W -> X -> W * Y) (s : env W) (x : X) : env W * Y := let (w, y) := f (fst s) x in ((w, snd s), y).
(** The callbacks of NmdcReader.v among those of a program, nmdc/reader.go:52-81 *)
Definition foreign_cfg {W} (c : ncfg W) : fcfg W msg :=
  mkFcfg (nc_max_cmd c)
    (match nc_keep_alive c with None => None | Some f => Some (fun s => unaware (fun w (_ : unit) => f w) s tt) end)
    (map (fun h s cmd args => unaware (fun w => h w cmd) s args) (nc_raw c))
    (match nc_unknown c with None => None | Some f => Some (unaware f) end)
    (match nc_unmarshal_err c with None => None | Some f => Some (fun s l e => unaware (fun w => f w l) s e) end)
    (map (fun h p => let '((w, m), v) := h (fst (fst p), snd p) in (((w, snd (fst p)), m), v)) (nc_msg c)).
