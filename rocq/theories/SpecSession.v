(** Independent specification of a whole session with a line reader: which results are
    allowed for any sequence of ReadLine, Read, Binary, EnableZlib, SetMaxLine and OnLine
    calls, in terms of the bytes the connection has still to deliver. *)
From Verif Require Import Base LineReader SpecLine.

(** The bytes not read yet: plain bytes, or what a compressed section still holds followed
    by plain bytes. *)
Inductive stream := Plain (s : bytes) | Zip (x rest : bytes).
(** What will be read. *)
Definition contents (t : stream) : bytes := match t with Plain s => s | Zip x rest => x ++ rest end.
(** After reading [k] bytes.  The compressed section is left for certain only when a byte
    behind it has been read. *)
Definition after (k : nat) (t : stream) : stream :=
  match t with
  | Plain s => Plain (skipn k s)
  | Zip x rest => if (k <=? length x)%nat then Zip (skipn k x) rest else Plain (skipn (k - length x) rest)
  end.

Section Session.
Context {W Z : Type} (act : Z -> zaction Z) (zinit : Z).
(** The reader. *)
Notation rd := (reader W Z).

(** The configuration of the reader is not changed. *)
Definition keeps (r r' : rd) : Prop :=
  rd_delim r' = rd_delim r /\ rd_max r' = rd_max r /\ rd_open r' = rd_open r /\ rd_hooks r' = rd_hooks r.

(** [I r t]: the reader [r] will read [t].  Every call has the result it should have and
    leads to a reader that again will read what remains. *)
Record session (I : rd -> stream -> Prop) : Prop := {
  (* ReadLine with a complete line ahead: the hooks decide *)
  se_line : forall r t l u w w' v, I r t -> contents t = l ++ u -> is_line (rd_delim r) l -> within (rd_max r) (length l) ->
    verdict (rd_hooks r) w l w' v ->
    exists r', I r' (after (length l) t) /\ keeps r r' /\
      match v with
      | HPass => eventually (fun f => read_line act f w r = Some (LLine l, w', r'))
      | HErr e => eventually (fun f => read_line act f w r = Some (LErr None e, w', r'))
      | HDrop => forall out, eventually (fun f => read_line act f w' r' = Some out) -> eventually (fun f => read_line act f w r = Some out)
      end;
  (* ReadLine at the end of the stream *)
  se_rest : forall r t w, I r t -> ~ In (rd_delim r) (contents t) -> within (rd_max r) (S (length (contents t))) ->
    exists r', I r' (Plain []) /\ keeps r r' /\ eventually (fun f => read_line act f w r = Some (LErr (Some (contents t)) EEOF, w, r'));
  (* Read *)
  se_read : forall r t n, I r t -> 0 < n ->
    (exists d u r', contents t = d ++ u /\ length d <= n /\ I r' (after (length d) t) /\ keeps r r' /\
       eventually (fun f => reader_read act f n r = Some (ROk (d, None), r'))) \/
    (contents t = [] /\ exists r', I r' (Plain []) /\ keeps r r' /\
       eventually (fun f => reader_read act f n r = Some (ROk ([], Some EEOF), r')));
  (* Binary, reading from it and closing it *)
  se_binary : forall r t sz, I r t -> (sz < 2 ^ 63)%N -> binary sz r = ROk (BinInt.Z.of_N sz);
  se_binary_read : forall r t n left, I r t -> 0 < n -> (0 < left)%Z ->
    (exists d u r', contents t = d ++ u /\ length d <= n /\ (BinInt.Z.of_nat (length d) <= left)%Z /\ I r' (after (length d) t) /\ keeps r r' /\
       eventually (fun f => binary_read act f n left r = Some (ROk (d, None), (left - BinInt.Z.of_nat (length d))%Z, r'))) \/
    (contents t = [] /\ exists r', I r' (Plain []) /\ keeps r r' /\
       eventually (fun f => binary_read act f n left r = Some (ROk ([], Some EEOF), left, r')));
  se_binary_end : forall r t n f, I r t -> binary_read act f n 0 r = Some (ROk ([], Some EEOF), 0%Z, r);
  se_close : forall r t left, I r t -> (0 <= left)%Z ->
    exists r' k, I r' (after k t) /\ k <= BinInt.Z.to_nat left /\ (length (contents t) <= k \/ k = BinInt.Z.to_nat left) /\ keeps r r' /\
      eventually (fun f => binary_close act f left r = Some (ROk None, r'));
  (* EnableZlib *)
  se_zlib : forall r z x rest, I r (Plain (z ++ rest)) -> inflates act zinit z x ->
    exists r', I r' (Zip x rest) /\ keeps r r' /\ eventually (fun f => enable_zlib act zinit f r = Some (ROk tt, r'));
  se_zlib_twice : forall r x rest f, I r (Zip x rest) -> x <> [] -> enable_zlib act zinit f r = Some (RErr err_zlib_active, r);
  (* configuration *)
  se_max : forall r t z, I r t -> I (set_max_line z r) t;
  se_hook : forall r t h, I r t -> I (on_line h r) t
}.

(** The reader will read [t], whatever is called in whatever order. *)
Definition serves (r : rd) (t : stream) : Prop := exists I, session I /\ I r t.
End Session.
