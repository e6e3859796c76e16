(** Independent specifications for the line protocol. *)
From Verif Require Import Base LineReader.

(** [s] consists of the complete lines [ls] (each ending with its only delimiter)
    followed by the unterminated piece [rest]. *)
Definition is_line (delim : byte) (l : bytes) : Prop :=
  exists b, l = b ++ [delim] /\ ~ In delim b.
(** The lines of a stream and what is left behind the last one. *)
Definition lines_of (delim : byte) (s : bytes) (ls : list bytes) (rest : bytes) : Prop :=
  s = concat ls ++ rest /\ Forall (is_line delim) ls /\ ~ In delim rest.

(** All data bytes of a read script. *)
Definition script_data (c : script) : bytes := flat_map (fun ev => match ev with RD d _ => d end) c.

(** Reads that deliver data and/or no error: the connection is not failing. *)
Definition quiet (ev : read_event) : Prop := match ev with RD d e => d <> [] \/ e = None end.
(** Reads without any error. *)
Definition no_error (ev : read_event) : Prop := match ev with RD _ e => e = None end.
(** Reads without error that deliver at least one byte. *)
Definition solid (ev : read_event) : Prop := match ev with RD d e => d <> [] /\ e = None end.

(** Outputs of [n] successive ReadLine calls on a connection that delivers the results
    [outs], then the incomplete line [rest], then end of file forever. *)
Definition then_eof (n : nat) (outs : list line_out) (rest : bytes) : list line_out :=
  firstn n (outs ++ LErr (Some rest) EEOF :: repeat (LErr (Some []) EEOF) n).

(** A length limit as understood by SetMaxLine: values <= 0 mean no limit. *)
Definition within (limit : Z) (n : nat) : Prop := (limit <= 0 \/ Z.of_nat n <= limit)%Z.

(** [P] holds for all sufficiently large amounts of fuel. *)
Definition eventually (P : nat -> Prop) : Prop := exists f0, forall f, f0 <= f -> P f.

(** [n] successive calls of ReadLine. *)
Fixpoint read_lines {W Z} (act : Z -> zaction Z) (fuel n : nat) (w : W) (r : reader W Z)
  : option (list line_out * W * reader W Z) :=
  match n with
  | O => Some ([], w, r)
  | S m =>
      match read_line act fuel w r with
      | None => None
      | Some (o, w1, r1) =>
          match read_lines act fuel m w1 r1 with
          | None => None
          | Some (os, w2, r2) => Some (o :: os, w2, r2)
          end
      end
  end.

(** ** Hooks *)

(** What a list of hooks says about a line: they are asked in order with the complete
    line until one of them does not pass it. *)
Inductive verdict {W} : list (hook W) -> W -> bytes -> W -> hook_res -> Prop :=
| v_none w l : verdict [] w l w HPass
| v_pass h hs w l w1 w2 v : h w l = (w1, HPass) -> verdict hs w1 l w2 v -> verdict (h :: hs) w l w2 v
| v_stop h hs w l w1 v : h w l = (w1, v) -> v <> HPass -> verdict (h :: hs) w l w1 v.

(** What the reader reports for a list of lines: passed lines as they are, hook errors
    as errors, nothing for dropped lines. *)
Inductive reported {W} (hs : list (hook W)) : W -> list bytes -> list line_out -> W -> Prop :=
| rep_nil w : reported hs w [] [] w
| rep_pass w l ls w1 os w2 :
    verdict hs w l w1 HPass -> reported hs w1 ls os w2 -> reported hs w (l :: ls) (LLine l :: os) w2
| rep_drop w l ls w1 os w2 :
    verdict hs w l w1 HDrop -> reported hs w1 ls os w2 -> reported hs w (l :: ls) os w2
| rep_err w l ls w1 e os w2 :
    verdict hs w l w1 (HErr e) -> reported hs w1 ls os w2 ->
    reported hs w (l :: ls) (LErr None e :: os) w2.

(** ** zlib *)

(** Starting in state [z] the inflater consumes exactly [c] and produces [x]:
    [c] is a complete compressed stream of [x]. *)
Inductive inflates {Z} (act : Z -> zaction Z) : Z -> bytes -> bytes -> Prop :=
| inf_byte z k b c x : act z = ZByte k -> inflates act (k b) c x -> inflates act z (b :: c) x
| inf_full z n k d c x : act z = ZFull n k -> length d = n -> inflates act (k d) c x -> inflates act z (d ++ c) x
| inf_ready z z' c x : act z = ZReady z' -> inflates act z' c x -> inflates act z c x
| inf_give z d z' c x : act z = ZGive d z' -> inflates act z' c x -> inflates act z c (d ++ x)
| inf_last z d : act z = ZLast d -> inflates act z [] d.

(** A new reader with a line limit and hooks (NewReader, SetMaxLine, OnLine...). *)
Definition limited {W Z} (limit : BinInt.Z) (hs : list (hook W)) (c : script) (delim : byte) : reader W Z :=
  fold_left (fun r h => on_line h r) hs (set_max_line limit (new_reader c delim)).

(** ** What a reader will deliver *)

(** An open reader delivers the stream [s]: all later ReadLine calls return what its
    hooks make of the lines of [s] (provided they are within the limit), then report the
    incomplete rest with io.EOF, and the reader ends up in uncompressed mode. *)
Definition delivers {W Z} (act : Z -> zaction Z) (r : reader W Z) (s : bytes) : Prop :=
  forall n ls rest w outs w',
    lines_of (rd_delim r) s ls rest ->
    Forall (fun l => within (rd_max r) (length l)) ls -> within (rd_max r) (S (length rest)) ->
    reported (rd_hooks r) w ls outs w' ->
    exists w2 r2, eventually (fun f => read_lines act f n w r = Some (then_eof n outs rest, w2, r2)) /\
      (length outs < n -> w2 = w' /\ rd_zlib_on r2 = false).

(** Everything a user of a reader can do to it. *)
Inductive step {W Z} (act : Z -> zaction Z) (zinit : Z) : reader W Z -> reader W Z -> Prop :=
| st_line f w r o w' r' : read_line act f w r = Some (o, w', r') -> step act zinit r r'
| st_read f n r o r' : reader_read act f n r = Some (o, r') -> step act zinit r r'
| st_binary f n l r o l' r' : binary_read act f n l r = Some (o, l', r') -> step act zinit r r'
| st_bclose f l r o r' : binary_close act f l r = Some (o, r') -> step act zinit r r'
| st_zlib f r o r' : enable_zlib act zinit f r = Some (o, r') -> step act zinit r r'
| st_max z r : step act zinit r (set_max_line z r)
| st_hook h r : step act zinit r (on_line h r)
| st_close r : step act zinit r (close_reader r).

(** Readers reachable from NewReader on any connection. *)
Inductive reachable {W Z} (act : Z -> zaction Z) (zinit : Z) : reader W Z -> Prop :=
| reach_new c delim : reachable act zinit (new_reader c delim)
| reach_step r r' : reachable act zinit r -> step act zinit r r' -> reachable act zinit r'.

(** Successive reads from the reader returned by Binary. *)
Fixpoint binary_reads {W Z} (act : Z -> zaction Z) (fuel : nat) (ns : list nat) (left : BinInt.Z) (r : reader W Z)
  : option (list (bytes * option error) * BinInt.Z * reader W Z) :=
  match ns with
  | [] => Some ([], left, r)
  | n :: ns' =>
      match binary_read act fuel n left r with
      | Some (ROk de, left', r') =>
          match binary_reads act fuel ns' left' r' with
          | Some (os, left2, r2) => Some (de :: os, left2, r2)
          | None => None
          end
      | _ => None
      end
  end.
