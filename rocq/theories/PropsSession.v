(** Property theorem C99: whole sessions of the line reader.
    Specification: SpecSession.v.  Proofs: LineSession.v. *)
From Verif Require Import Base BaseFacts LineReader SpecLine SpecSession LineReaderFacts LineReaderStream LineReaderOps LineSession.

(** ** C99: the reader reads the stream of the connection, whatever is called in whatever order *)

(** A new reader on a connection that delivers its bytes in any pieces serves these bytes. *)
Theorem C99_new {W Z} (act : Z -> zaction Z) zinit limit (hs : list (hook W)) c delim : Forall solid c ->
  serves act zinit (limited limit hs c delim) (Plain (script_data c)).
Proof. exact (limited_serves act zinit limit hs c delim). Qed.
Print Assumptions C99_new.

(** A reader that serves a stream gives every call the result the specification demands and
    then serves what remains. *)
Theorem C99_calls {W Z} (act : Z -> zaction Z) zinit : session act zinit (serves (W:=W) act zinit).
Proof. exact (serves_session act zinit). Qed.
Print Assumptions C99_calls.

(** A session: a line, compression (one length byte, stored bytes), a binary read across the
    end of the compressed section, the rest of the line, compression again. *)
Inductive stored := SStart | SLen (n : nat) | SBody (n : nat) | SGive (d : bytes).
(** An inflater for the example. *)
Definition unstore (z : stored) : zaction stored :=
  match z with
  | SStart => ZByte (fun b => SLen (N.to_nat (b2n b)))
  | SLen n => ZReady (SBody n)
  | SBody n => ZFull n SGive
  | SGive d => ZLast d
  end.
(** The connection of the example. *)
Definition C99_script : script :=
  [RD (B "a|" ++ [x03; "b"%byte]) None; RD (B "|c") None; RD (B "d") None; RD (B "ef|" ++ [x02]) None; RD (B "g|h") None].
(** The calls of the example. *)
Definition C99_run : option (list line_out * list (bytes * option error) * list line_out * list line_out) :=
  match read_line unstore 50 tt (limited 8 [] C99_script "|"%byte) with
  | Some (o1, _, r) =>
    match enable_zlib unstore SStart 50 r with
    | Some (ROk tt, r) =>
      match read_line unstore 50 tt r, binary 2 r with
      | Some (o2, _, r), ROk lft =>
        match binary_reads unstore 50 [1; 5; 5] lft r with
        | Some (ds, lft, r) =>
          match binary_close unstore 50 lft r with
          | Some (ROk None, r) =>
            match read_line unstore 50 tt r with
            | Some (o3, _, r) =>
              match enable_zlib unstore SStart 50 r with
              | Some (ROk tt, r) =>
                match read_line unstore 50 tt r with
                | Some (o4, _, r) =>
                  match read_line unstore 50 tt r with
                  | Some (o5, _, r) => Some ([o1; o2], ds, [o3], [o4; o5])
                  | None => None
                  end
                | None => None
                end
              | _ => None
              end
            | None => None
            end
          | _ => None
          end
        | None => None
        end
      | _, _ => None
      end
    | _ => None
    end
  | None => None
  end.
Example C99_case : forallb (fun ev => match ev with RD (_ :: _) None => true | _ => false end) C99_script = true /\
  script_data C99_script = B "a|" ++ (x03 :: B "b|c") ++ B "def|" ++ (x02 :: B "g|") ++ B "h" /\
  inflates unstore SStart (x03 :: B "b|c") (B "b|c") /\
  C99_run = Some ([LLine (B "a|"); LLine (B "b|")], [(B "c", None); (B "d", None); ([], Some EEOF)], [LLine (B "ef|")],
                  [LLine (B "g|"); LErr (Some (B "h")) EEOF]) /\
  after 4 (Zip (B "b|c") (B "def|")) = Plain (B "ef|").
Proof.
  split; [reflexivity|]. split; [reflexivity|]. split; [|split; vm_compute; reflexivity].
  eapply inf_byte; [reflexivity|]. eapply inf_ready; [reflexivity|].
  change (B "b|c") with (B "b|c" ++ []) at 1. eapply inf_full; [reflexivity|reflexivity|].
  now apply inf_last.
Qed.
