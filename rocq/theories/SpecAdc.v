(** Specification of the text forms of ADC. *)
From Verif Require Import Base SpecText SpecHash AdcValue.

(** [escaped s e]: [e] writes [s] with each backslash, space and line feed replaced by its
    two character escape and everything else as it is. *)
Inductive escaped : bytes -> bytes -> Prop :=
| es_nil : escaped [] []
| es_backslash s e : escaped s e -> escaped ("\"%byte :: s) ("\"%byte :: "\"%byte :: e)
| es_space s e : escaped s e -> escaped (" "%byte :: s) ("\"%byte :: "s"%byte :: e)
| es_newline s e : escaped s e -> escaped (x0a :: s) ("\"%byte :: "n"%byte :: e)
| es_plain c s e : c <> "\"%byte -> c <> " "%byte -> c <> x0a -> escaped s e -> escaped (c :: s) (c :: e).

(** [denotes_text e s]: [s] is what a reader makes of [e]: escapes are undone, whatever
    does not begin one of the three escapes stands for itself. *)
Definition an_escape (c : byte) : option byte :=
  if beq c "s" then Some " "%byte else if beq c "n" then Some x0a else if beq c "\" then Some "\"%byte else None.
(** A text in escaped form. *)
Inductive denotes_text : bytes -> bytes -> Prop :=
| dt_nil : denotes_text [] []
| dt_escape c d e s : an_escape c = Some d -> denotes_text e s -> denotes_text ("\"%byte :: c :: e) (d :: s)
| dt_odd e s : (forall c d t, e = c :: t -> an_escape c <> Some d) -> denotes_text e s -> denotes_text ("\"%byte :: e) ("\"%byte :: s)
| dt_plain c e s : c <> "\"%byte -> denotes_text e s -> denotes_text (c :: e) (c :: s).

(** ** Values of the fields of a structure *)

(** 64 bit integers *)
Definition int64 (z : Z) : Prop := (- 2 ^ 63 <= z < 2 ^ 63)%Z.

(** [carries k v]: the value can be told from its text.  Strings, booleans and lists of strings always
    can; numbers have 64 bits; identifiers must not contain the separator of fields, features not
    that of features and path components not that of paths (there is no escape for these), and an empty
    path looks like the path with one empty component. *)
Fixpoint carries (k : kind) : val k -> Prop :=
  match k with
  | KStr | KBool | KStrs => fun _ => True
  | KInt => int64
  | KSid => fun s => length s = 4 /\ ~ In " "%byte s
  | KCid | KTth => fun h => length h = 24
  | KFeas => fun l => Forall (fun f => length f = 4 /\ ~ In " "%byte f /\ ~ In ","%byte f) l
  | KPath => fun p => p <> [] /\ Forall (fun c => ~ In "/"%byte c) p
  | KPtr k' => fun v => match v with Some x => carries k' x | None => True end
  end.
(** Every field holds a value its encoding can carry. *)
Fixpoint carries_all (fs : list field) : vals fs -> Prop :=
  match fs with
  | [] => fun _ => True
  | f :: r => fun v => carries (f_kind f) (fst v) /\ carries_all r (snd v)
  end.

(** [text k v t]: [t] is the text of a value. *)
Fixpoint text (k : kind) : val k -> bytes -> Prop :=
  match k with
  | KStr => fun v t => escaped v t
  | KInt => fun v t => signed_decimal t v /\ ~ In "+"%byte t
  | KBool => fun v t => t = if v then B "1" else B "0"
  | KSid => fun v t => t = v
  | KCid | KTth => fun v t => length t = 39 /\ spells t (flat_map bits8 v ++ [false; false; false])
  | KFeas => fun v t => t = join (B ",") v
  | KPath => fun v t => exists es, Forall2 escaped v es /\ t = join (B "/") es
  | KStrs => fun _ _ => False
  | KPtr k' => fun v t => match v with Some x => text k' x t | None => False end
  end.

(** [omitted f v]: fields that are not positional nor marked as required are left out when they
    are zero. *)
Definition omitted (f : field) (v : val (f_kind f)) : Prop :=
  f_tag f <> B "#" /\ f_req f = false /\ v = zero (f_kind f).

(** [words f v l]: the words of one field: none if it is omitted, one per element for a list of
    strings and one otherwise; the tag precedes the text unless the field is positional. *)
Definition word (f : field) (t : bytes) : bytes := (if bytes_eqb (f_tag f) (B "#") then [] else f_tag f) ++ t.
(** The words of one field. *)
Definition words (f : field) (v : val (f_kind f)) (l : list bytes) : Prop :=
  omitted f v /\ l = [] \/
  ~ omitted f v /\
  match f_kind f as k return val k -> Prop with
  | KStrs => fun v => exists es, Forall2 escaped v es /\ l = map (word f) es
  | k => fun v => exists t, text k v t /\ l = [word f t]
  end v.
(** The words of all fields, in the order of the table. *)
Fixpoint all_words (fs : list field) : vals fs -> list bytes -> Prop :=
  match fs with
  | [] => fun _ l => l = []
  | f :: r => fun v l => exists l1 l2, words f (fst v) l1 /\ all_words r (snd v) l2 /\ l = l1 ++ l2
  end.

(** ** Reading messages *)

(** The words of a payload are separated by single spaces. *)
Definition separated (s : bytes) (ws : list bytes) : Prop :=
  ws <> [] /\ Forall (fun w => ~ In " "%byte w) ws /\ s = join (B " ") ws.

(** The texts that follow a tag of two characters, in order. *)
Definition values (tag : bytes) (ws : list bytes) : list bytes :=
  flat_map (fun w => if bytes_eqb (firstn 2 w) tag then [skipn 2 w] else []) ws.

(** A text that is longer than any hash (line breaks do not count). *)
Definition overlong (s : bytes) : Prop := starts_with_symbols 40 (unbroken s).

(** What becomes of the text of a number: nothing means 0, decimal integers are taken exactly, and
    otherwise the answer of ParseFloat counts; a fraction leaves the number [old] that was there. *)
Definition number (pf : bytes -> float_result) (x : bytes) (old z : Z) : Prop :=
  (x = [] /\ z = 0%Z) \/
  (signed_decimal x z /\ int64 z) \/
  (x <> [] /\ (forall z', signed_decimal x z' -> ~ int64 z') /\ (pf x = FInt z \/ pf x = FFrac /\ z = old)).

(** ** Feature maps *)

(** A map with different keys, in some order of iteration *)
Definition distinct (m : list (bytes * bool)) : Prop := NoDup (map fst m).
(** [entry m k r]: what the map holds for a key. *)
Definition entry (m : list (bytes * bool)) (k : bytes) (r : option bool) : Prop :=
  match r with
  | Some v => In (k, v) m
  | None => forall v, ~ In (k, v) m
  end.

(** ** Structures that agree on all fields but those named *)
Fixpoint same_except (ns : list string) (fs : list field) : vals fs -> vals fs -> Prop :=
  match fs with
  | [] => fun _ _ => True
  | f :: r => fun v w => (In (f_name f) ns \/ fst v = fst w) /\ same_except ns r (snd v) (snd w)
  end.

(** ** Packets *)

(** A packet of the given kind and message type; a packet without anything after its type may lack the space. *)
Definition framed (k : byte) (name data p : bytes) : Prop :=
  length name = 3 /\ (p = k :: name ++ " "%byte :: data \/ exists d, data = x0a :: d /\ p = k :: name ++ data).

(** [selectors x t]: [x] consists of feature selectors and spaces, followed by [t]. *)
Inductive selectors : bytes -> bytes -> Prop :=
| sl_end t : selectors t t
| sl_space x t : selectors x t -> selectors (" "%byte :: x) t
| sl_feature c f x t : c = "+"%byte \/ c = "-"%byte -> length f = 4 -> selectors x t -> selectors (c :: f ++ x) t.

(** Where no escape protects the text, there is no line delimiter. *)
Fixpoint quiet (k : kind) : val k -> Prop :=
  match k with
  | KSid => fun v => ~ In x0a v
  | KFeas => fun v => Forall (fun f => ~ In x0a f) v
  | KPtr k' => fun v => match v with Some x => quiet k' x | None => True end
  | _ => fun _ => True
  end.
(** No field holds a line feed that would reach the wire unescaped. *)
Fixpoint quiet_all (fs : list field) : vals fs -> Prop :=
  match fs with
  | [] => fun _ => True
  | f :: r => fun v => quiet (f_kind f) (fst v) /\ quiet_all r (snd v)
  end.
