(** Byte strings, results and the Go [bytes]/[strings] functions used by go-dc.

    The definitions of this file model parts of the Go standard library that the
    code of /repo calls; each comment names the library function and one of the
    call sites in /repo that needs it. *)
From Coq Require Export NArith ZArith Lia Bool.
From Coq Require Export Strings.String.
From Coq Require Export Strings.Byte.
From Coq Require Export List.
Export ListNotations.
Open Scope list_scope.

(** A Go [[]byte] or [string] (nmdc/types.go:49, lineproto/reader.go:55). *)
Notation bytes := (list byte).

(** String literals of the Go source, e.g. nmdc/types.go:26-33. *)
Definition B (s : string) : bytes := list_byte_of_string s.
Arguments B s%string.

(** Errors as values.  Go errors created with errors.New/fmt.Errorf carry a text
    which no code inspects, so one constructor [EText] with a short label is enough;
    the errors that are inspected by type get their own constructor:
    io.EOF (lineproto/reader.go:200), io.ErrUnexpectedEOF (nmdc/message.go:155),
    lineproto.ErrProtocolViolation (nmdc/reader.go:35,156-158), errUnknownEncoding
    (nmdc/reader.go:37-43), ErrUnexpectedCommand (nmdc/reader.go:18-33). *)
Inductive error :=
| EText (label : string)
| EEOF
| EUnexpectedEOF
| EProtocol (label : string)
| EUnknownEnc (text : bytes)
| EUnexpectedCmd (expected : bytes) (typ : bytes) (data : bytes).
Arguments EText label%string.
Arguments EProtocol label%string.

(** Outcome of a Go call returning (value, error) that may also panic (e.g. nmdc/types.go:107-118). *)
Inductive res (A : Type) :=
| Ok (a : A)
| Err (e : error)
| Panic.
Arguments Ok {A} a.
Arguments Err {A} e.
Arguments Panic {A}.

(** [x, err := f(); if err != nil { return err }] (e.g. nmdc/msg_ctm.go:121-130). *)
Definition bind {A C} (r : res A) (f : A -> res C) : res C :=
  match r with
  | Ok a => f a
  | Err e => Err e
  | Panic => Panic
  end.

Declare Scope go_scope.
Delimit Scope go_scope with go.
(** Notation for bind, e.g. nmdc/msg_ctm.go:121-130 *)
Notation "'do' x <- r ; k" := (bind r (fun x => k))
  (at level 200, x pattern, r at level 100, k at level 200, right associativity) : go_scope.
(** The same without a value, e.g. adc/packets.go:316-322 *)
Notation "'do!' r ; k" := (bind r (fun _ => k))
  (at level 200, r at level 100, k at level 200, right associativity) : go_scope.
Open Scope go_scope.

(** Byte equality, Go [==] on bytes (e.g. nmdc/msg_ctm.go:94-108). *)
Definition beq (a b : byte) : bool := Byte.eqb a b.

(** Numeric value of a byte and conversion [byte(n)] (wraps modulo 256), used in
    nmdc/utils.go:69-75, nmdc/msg_lock.go:113-119. *)
Definition b2n (b : byte) : N := Byte.to_N b.
(** byte(n), nmdc/utils.go:69-75, nmdc/msg_lock.go:113-119 *)
Definition n2b (n : N) : byte :=
  match Byte.of_N (n mod 256) with Some b => b | None => x00 end.

(** bytes.Equal / Go [==] on strings (nmdc/msg_files.go:91,111,200). *)
Fixpoint bytes_eqb (a b : bytes) : bool :=
  match a, b with
  | [], [] => true
  | x :: a', y :: b' => beq x y && bytes_eqb a' b'
  | _, _ => false
  end.

(** bytes.IndexByte / strings.IndexByte; [None] is -1 (lineproto/reader.go:105). *)
Fixpoint index_byte (c : byte) (s : bytes) : option nat :=
  match s with
  | [] => None
  | x :: t => if beq x c then Some 0 else option_map S (index_byte c t)
  end.

(** The idiom [i := IndexByte(s, c); s[:i], s[i+1:]] (e.g. nmdc/msg_ctm.go:73-84). *)
Definition cut (c : byte) (s : bytes) : option (bytes * bytes) :=
  match index_byte c s with
  | None => None
  | Some i => Some (firstn i s, skipn (S i) s)
  end.

(** bytes.LastIndexByte / strings.LastIndex with a one-byte pattern
    (nmdc/msg_ping.go:155, nmdc/msg_user_list.go:117, nmdc/msg_user.go:234). *)
Definition last_index_byte (c : byte) (s : bytes) : option nat :=
  match index_byte c (rev s) with
  | None => None
  | Some i => Some (length s - 1 - i)
  end.

(** [s[:i], s[i+1:]] for the last occurrence
    (nmdc/msg_ping.go:155-158, nmdc/msg_user_list.go:117-123, nmdc/msg_user.go:234-245). *)
Definition last_cut (c : byte) (s : bytes) : option (bytes * bytes) :=
  match last_index_byte c s with
  | None => None
  | Some i => Some (firstn i s, skipn (S i) s)
  end.

(** bytes.HasPrefix (nmdc/msg_lock.go:59). *)
Fixpoint has_prefix (p s : bytes) : bool :=
  match p, s with
  | [], _ => true
  | x :: p', y :: s' => beq x y && has_prefix p' s'
  | _ :: _, [] => false
  end.

(** bytes.HasSuffix, needed by bytes.TrimSuffix (nmdc/msg_user_list.go:65). *)
Definition has_suffix (p s : bytes) : bool := has_prefix (rev p) (rev s).

(** bytes.TrimPrefix (adc/marshal.go:131). *)
Definition trim_prefix (p s : bytes) : bytes :=
  if has_prefix p s then skipn (length p) s else s.

(** bytes.TrimSuffix (nmdc/msg_user_list.go:65,111,112). *)
Definition trim_suffix (p s : bytes) : bytes :=
  if has_suffix p s then firstn (length s - length p) s else s.

(** bytes.Index (nmdc/msg_chat.go:149,159,168,214). *)
Fixpoint index (p s : bytes) : option nat :=
  if has_prefix p s then Some 0
  else match s with
       | [] => None
       | _ :: t => option_map S (index p t)
       end.

(** The idiom [i := Index(s, p); s[:i], s[i+len(p):]] (nmdc/msg_chat.go:149-170). *)
Definition cut_seq (p s : bytes) : option (bytes * bytes) :=
  match index p s with
  | None => None
  | Some i => Some (firstn i s, skipn (i + length p) s)
  end.

(** bytes.IndexByte(s, c) >= 0 (nmdc/types.go:50,137). *)
Definition contains_byte (c : byte) (s : bytes) : bool := existsb (fun x => beq x c) s.

(** bytes.Split with a one-byte separator (adc/marshal.go:113, nmdc/extensions.go:62). *)
Fixpoint split_byte (c : byte) (s : bytes) : list bytes :=
  match s with
  | [] => [[]]
  | x :: t =>
      if beq x c then [] :: split_byte c t
      else match split_byte c t with
           | [] => [[x]]
           | h :: r => (x :: h) :: r
           end
  end.

(** bytes.SplitN with a one-byte separator, n > 0 (nmdc/msg_ping.go:111,
    nmdc/msg_chat.go:298, adc/messages.go:219). *)
Fixpoint splitn_byte (n : nat) (c : byte) (s : bytes) : list bytes :=
  match n with
  | O => []
  | S O => [s]
  | S n' => match cut c s with
            | None => [s]
            | Some (a, r) => a :: splitn_byte n' c r
            end
  end.

(** bytes.Split with a longer, non-empty separator (nmdc/msg_user_list.go:72,113).
    Fuel: every round consumes at least one byte. *)
Fixpoint split_seq_fuel (f : nat) (p s : bytes) : list bytes :=
  match f with
  | O => [s]
  | S f' => match cut_seq p s with
            | None => [s]
            | Some (a, r) => a :: split_seq_fuel f' p r
            end
  end.
(** bytes.Split(s, sep), nmdc/msg_user_list.go:72,113 *)
Definition split_seq (p s : bytes) : list bytes := split_seq_fuel (length s) p s.

(** strings.Join (adc/types.go:195) and the equivalent loops (nmdc/msg_hub.go:89-94). *)
Fixpoint join (sep : bytes) (l : list bytes) : bytes :=
  match l with
  | [] => []
  | [x] => x
  | x :: r => x ++ sep ++ join sep r
  end.

(** bytes.Count with a one-byte pattern (nmdc/utils.go:117, nmdc/msg_user.go:213). *)
Fixpoint count_byte (c : byte) (s : bytes) : nat :=
  match s with
  | [] => 0
  | x :: t => (if beq x c then 1 else 0) + count_byte c t
  end.

(** Removal of leading/trailing bytes of a class; bytes.TrimLeft/TrimRight with an
    ASCII cutset (nmdc/msg_chat.go:328). *)
Fixpoint drop_while (f : byte -> bool) (s : bytes) : bytes :=
  match s with
  | [] => []
  | x :: t => if f x then drop_while f t else s
  end.
(** bytes.TrimRight, nmdc/msg_chat.go:328, adc/conn.go:27 *)
Definition trim_right_by (f : byte -> bool) (s : bytes) : bytes := rev (drop_while f (rev s)).
(** bytes.Trim, nmdc/extensions.go:61 *)
Definition trim_by (f : byte -> bool) (s : bytes) : bytes := trim_right_by f (drop_while f s).
