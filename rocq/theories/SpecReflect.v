(** Specification of Marshal and Unmarshal for the structures of a program. *)
From Verif Require Import Base SpecText SpecAdc SpecAdcWrite AdcValue AdcReuse AdcReflect.

(** How something ends, without the text of an error *)
Inductive finish := Good | Bad | Crash.
(** The end a method reports *)
Definition ended (r : mend) : finish := match r with MDone => Good | MFail _ => Bad | MPanic => Crash end.
(** What the program learns: errors name the field. *)
Inductive conclusion := Fine | WrongField (name : bytes) | WrongType | Crashed.
(** The conclusion an end stands for *)
Definition concluded (r : gend) : conclusion :=
  match r with EndDone => Fine | EndField n _ => WrongField n | EndError _ => WrongType | EndPanic => Crashed end.
(** The conclusion from the end of one field *)
Definition conclude (f : gfield) (r : finish) : conclusion :=
  match r with Good => Fine | Bad => WrongField (gf_name f) | Crash => Crashed end.

(** ** Tags *)

(** [tag_parts tag name opt]: the name ends at the first comma, and [opt] is what follows the comma. *)
Inductive tag_parts : bytes -> bytes -> option bytes -> Prop :=
| tp_plain n : ~ In ","%byte n -> tag_parts n n None
| tp_comma n r : ~ In ","%byte n -> tag_parts (n ++ ","%byte :: r) n (Some r).
(** Names without a field of the message *)
Definition no_field (n : bytes) : Prop := n = [] \/ n = B "-".
(** The texts that follow a name at the beginning of a word *)
Definition after (n : bytes) (ws : list bytes) : list bytes :=
  flat_map (fun w => if bytes_eqb (firstn (length n) w) n then [skipn (length n) w] else []) ws.

(** ** Numbers *)

(** The size of an integer in bits *)
Definition size (w : bits) : Z := match w with Bits8 => 8 | Bits16 => 16 | Bits32 => 32 | Bits64 => 64 end.
(** Numbers with a sign that fit into the size *)
Definition fits (w : bits) (z : Z) : Prop := (- 2 ^ (size w - 1) <= z < 2 ^ (size w - 1))%Z.
(** Numbers in decimal digits that are accepted: fields of 16 bits accept those of 32 bits. *)
Definition accepted (w : bits) (z : Z) : Prop := match w with Bits64 => fits Bits64 z | _ => fits Bits32 z end.
(** What a field keeps of a number: the lower bits *)
Definition kept (w : bits) (z z' : Z) : Prop := fits w z' /\ exists k, z = (z' + k * 2 ^ size w)%Z.

(** The zero value of a type *)
Definition blank (t : gtype) : gval :=
  match t with
  | GString _ => VStr [] | GBool _ => VBool false | GInt _ _ => VInt 0 | GUint _ _ => VUint 0
  | GData _ _ z => VData z | GSlice _ _ => VSlice None | GPtr _ => VPtr None
  end.
(** The number of a named type *)
Definition type_number (t : gtype) : option nat :=
  match t with
  | GString n | GBool n | GInt n _ | GUint n _ | GData n _ _ | GSlice n _ => Some n
  | GPtr _ => None
  end.
(** Types that have no meaning for Unmarshal *)
Definition unreadable (t : gtype) : Prop :=
  match t with GInt _ Bits8 | GUint _ _ | GData _ _ _ | GSlice _ _ => True | _ => False end.

(** [typed t v]: the values of a type *)
Fixpoint typed (t : gtype) (v : gval) : Prop :=
  match t, v with
  | GString _, VStr _ | GBool _, VBool _ | GData _ _ _, VData _ => True
  | GInt _ w, VInt z => fits w z
  | GUint _ w, VUint n => (Z.of_N n < 2 ^ size w)%Z
  | GSlice _ e, VSlice None | GPtr e, VPtr None => True
  | GSlice _ e, VSlice (Some l) => (fix all (l : list gval) : Prop := match l with [] => True | v :: r => typed e v /\ all r end) l
  | GPtr e, VPtr (Some x) => typed e x
  | _, _ => False
  end.

Section Read.
Variable M : nat -> gmethods.
Variable pf : bool -> bytes -> float_result.

(** The type decodes itself, with this method. *)
Definition decodes_itself (t : gtype) (f : gval -> bytes -> gval * mend) : Prop :=
  exists n, type_number t = Some n /\ gm_decode (M n) = Some f.
(** The type has no such method. *)
Definition plain (t : gtype) : Prop := forall n, type_number t = Some n -> gm_decode (M n) = None.

(** [value_read t x old v r]: reading the text [x] into a field that holds [old] leaves [v]. *)
Inductive value_read : gtype -> bytes -> gval -> gval -> finish -> Prop :=
| vr_own t f x old v r : decodes_itself t f -> f old x = (v, r) -> value_read t x old v (ended r)
| vr_empty t old : plain t -> value_read t [] old (blank t) Good
| vr_string n x old s : plain (GString n) -> x <> [] -> denotes_text x s -> value_read (GString n) x old (VStr s) Good
| vr_flag n c old b : plain (GBool n) -> (b = true <-> c <> x00) -> value_read (GBool n) [c] old (VBool b) Good
| vr_no_flag n x old : plain (GBool n) -> 2 <= length x -> value_read (GBool n) x old old Bad
| vr_int n w x old z z' : plain (GInt n w) -> w <> Bits8 -> signed_decimal x z -> accepted w z -> kept w z z' ->
    value_read (GInt n w) x old (VInt z') Good
| vr_float n w x old z z' : plain (GInt n w) -> w <> Bits8 -> x <> [] -> (forall z, signed_decimal x z -> ~ accepted w z) ->
    forall b, (b = true <-> w <> Bits64) -> pf b x = FInt z -> kept w z z' -> value_read (GInt n w) x old (VInt z') Good
| vr_fraction n w x old : plain (GInt n w) -> w <> Bits8 -> x <> [] -> (forall z, signed_decimal x z -> ~ accepted w z) ->
    forall b, (b = true <-> w <> Bits64) -> pf b x = FFrac -> value_read (GInt n w) x old old Good
| vr_no_number n w x old : plain (GInt n w) -> w <> Bits8 -> x <> [] -> (forall z, signed_decimal x z -> ~ accepted w z) ->
    forall b, (b = true <-> w <> Bits64) -> pf b x = FErr -> value_read (GInt n w) x old old Bad
| vr_pointer t x old v : x <> [] -> value_read t x (blank t) v Good -> value_read (GPtr t) x old (VPtr (Some v)) Good
| vr_no_pointer t x old v r : x <> [] -> value_read t x (blank t) v r -> r <> Good -> value_read (GPtr t) x old old r
| vr_unreadable t x old : plain t -> unreadable t -> x <> [] -> value_read t x old old Bad.

(** The elements of a slice, each from the zero value *)
Definition items_read (t : gtype) (xs : list bytes) (vs : list gval) : Prop :=
  Forall2 (fun x v => value_read t x (blank t) v Good) xs vs.
(** The first text that is not an element decides the end. *)
Definition items_fail (t : gtype) (xs : list bytes) (r : finish) : Prop :=
  exists a x b vs v, xs = a ++ x :: b /\ items_read t a vs /\ value_read t x (blank t) v r /\ r <> Good.

(** [named_read t xs old v r]: the same for the texts that follow the name of the field, of which there is at least one:
    types that decode themselves take the first, slices all of them, and others accept just one. *)
Inductive named_read (t : gtype) : list bytes -> gval -> gval -> finish -> Prop :=
| nr_own f x more old v r : decodes_itself t f -> f old x = (v, r) -> named_read t (x :: more) old v (ended r)
| nr_slice n e xs old vs : plain t -> t = GSlice n e -> xs <> [] -> items_read e xs vs -> named_read t xs old (VSlice (Some vs)) Good
| nr_no_slice n e xs old r : plain t -> t = GSlice n e -> items_fail e xs r -> named_read t xs old old r
| nr_single x old v r : plain t -> (forall n e, t <> GSlice n e) -> value_read t x old v r -> named_read t [x] old v r
| nr_many xs old : plain t -> (forall n e, t <> GSlice n e) -> 2 <= length xs -> named_read t xs old old Bad.

(** [field_read f ws ws' old v r]: one field, the words left before and after it *)
Inductive field_read (f : gfield) : list bytes -> list bytes -> gval -> gval -> finish -> Prop :=
| fr_skip n o ws old : tag_parts (gf_tag f) n o -> no_field n -> field_read f ws ws old old Good
| fr_word o x ws old v r : tag_parts (gf_tag f) (B "#") o -> gf_exported f = true -> value_read (gf_type f) x old v r -> field_read f (x :: ws) ws old v r
| fr_no_word o old : tag_parts (gf_tag f) (B "#") o -> field_read f [] [] old old Crash
| fr_hidden_word o x ws old : tag_parts (gf_tag f) (B "#") o -> gf_exported f = false -> field_read f (x :: ws) ws old old Crash
| fr_absent n o ws old : tag_parts (gf_tag f) n o -> ~ no_field n -> n <> B "#" -> after n ws = [] -> field_read f ws ws old old Good
| fr_named n o ws old v r : tag_parts (gf_tag f) n o -> ~ no_field n -> n <> B "#" -> gf_exported f = true ->
    named_read (gf_type f) (after n ws) old v r -> field_read f ws ws old v r
| fr_hidden n o ws old : tag_parts (gf_tag f) n o -> ~ no_field n -> n <> B "#" -> gf_exported f = false -> after n ws <> [] ->
    field_read f ws ws old old Crash.

(** [struct_read fs ws olds vs c]: the fields in order, up to the first that fails *)
Inductive struct_read : list gfield -> list bytes -> list gval -> list gval -> conclusion -> Prop :=
| sr_end ws : struct_read [] ws [] [] Fine
| sr_next f fs ws ws' old v olds vs c : field_read f ws ws' old v Good -> struct_read fs ws' olds vs c ->
    struct_read (f :: fs) ws (old :: olds) (v :: vs) c
| sr_stop f fs ws ws' old v olds r : field_read f ws ws' old v r -> r <> Good -> length fs = length olds ->
    struct_read (f :: fs) ws (old :: olds) (v :: olds) (conclude f r).

End Read.

Section Write.
Variable M : nat -> gmethods.

(** [writes_itself t v m]: the value has a method MarshalADC, and [m] is what it does to the buffer.  Pointers have the methods
    of what they point to; nil can only be given to a method of the pointer. *)
Inductive writes_itself : gtype -> gval -> (bytes -> bytes * mend) -> Prop :=
| wi_value t n f v : type_number t = Some n -> gm_value (M n) = Some f -> writes_itself t v (f v)
| wi_target t n f x : type_number t = Some n -> gm_value (M n) = Some f -> writes_itself (GPtr t) (VPtr (Some x)) (f x)
| wi_nil t n f : type_number t = Some n -> gm_value (M n) = Some f -> writes_itself (GPtr t) (VPtr None) (fun buf => (buf, MPanic))
| wi_pointer t n f p : type_number t = Some n -> gm_value (M n) = None -> gm_pointer (M n) = Some f -> writes_itself (GPtr t) (VPtr p) (f p).
(** There is no such method. *)
Definition mute (t : gtype) : Prop :=
  match t with
  | GPtr t' => forall n, type_number t' = Some n -> gm_value (M n) = None /\ gm_pointer (M n) = None
  | _ => forall n, type_number t = Some n -> gm_value (M n) = None
  end.

(** Types that have no meaning for Marshal *)
Definition unwritable (t : gtype) : Prop :=
  match t with GInt _ Bits8 | GUint _ Bits8 | GData _ _ _ | GSlice _ _ => True | _ => False end.

(** [value_written t v buf buf' r]: writing a value to the buffer *)
Inductive value_written : gtype -> gval -> bytes -> bytes -> finish -> Prop :=
| vw_own t v m buf buf' r : writes_itself t v m -> m buf = (buf', r) -> value_written t v buf buf' (ended r)
| vw_string n s e buf : mute (GString n) -> escaped s e -> value_written (GString n) (VStr s) buf (buf ++ e) Good
| vw_int n w z buf : mute (GInt n w) -> w <> Bits8 -> value_written (GInt n w) (VInt z) buf (buf ++ number_text z) Good
| vw_uint n w z buf : mute (GUint n w) -> w <> Bits8 -> value_written (GUint n w) (VUint z) buf (buf ++ number_text (Z.of_N z)) Good
| vw_bool n b buf : mute (GBool n) -> value_written (GBool n) (VBool b) buf (buf ++ B (if b then "1" else "0")) Good
| vw_nil t buf : mute (GPtr t) -> value_written (GPtr t) (VPtr None) buf buf Good
| vw_pointer t x buf buf' r : mute (GPtr t) -> value_written t x buf buf' r -> value_written (GPtr t) (VPtr (Some x)) buf buf' r
| vw_unwritable t v buf : mute t -> unwritable t -> value_written t v buf buf Bad.

(** What stands before the text of a value: a space unless it is the first, and the name *)
Definition lead (n : bytes) (first : bool) : bytes := (if first then [] else B " ") ++ (if bytes_eqb n (B "#") then [] else n).

(** The values of a slice under the same name, up to the first that fails.  The flags tell whether nothing has been written yet. *)
Inductive items_written (n : bytes) (t : gtype) : list gval -> bytes -> bool -> bytes -> bool -> finish -> Prop :=
| iw_end buf first : items_written n t [] buf first buf first Good
| iw_next v l buf first buf1 buf2 first2 r : value_written t v (buf ++ lead n first) buf1 Good ->
    items_written n t l buf1 false buf2 first2 r -> items_written n t (v :: l) buf first buf2 first2 r
| iw_stop v l buf first buf1 r : value_written t v (buf ++ lead n first) buf1 r -> r <> Good ->
    items_written n t (v :: l) buf first buf1 false r.

(** Values that are left out *)
Definition vanishes (t : gtype) (v : gval) : Prop := v = blank t.
(** Types whose values cannot be compared *)
Definition incomparable (t : gtype) : Prop := exists n z, t = GData n false z.
(** Types with nil *)
Definition has_nil (t : gtype) : Prop := (exists e, t = GPtr e) \/ (exists n e, t = GSlice n e).
(** A field that must not be left out *)
Definition demanded (n : bytes) (o : option bytes) : Prop := n = B "#" \/ o = Some (B "req").

(** [field_written f v buf first buf' first' r] *)
Inductive field_written (f : gfield) : gval -> bytes -> bool -> bytes -> bool -> finish -> Prop :=
| fw_skip v buf first : no_field (gf_tag f) -> field_written f v buf first buf first Good
| fw_omitted n o v buf first : ~ no_field (gf_tag f) -> tag_parts (gf_tag f) n o -> ~ demanded n o ->
    (gf_exported f = true \/ has_nil (gf_type f)) -> ~ incomparable (gf_type f) -> vanishes (gf_type f) v ->
    field_written f v buf first buf first Good
| fw_incomparable n o v buf first : ~ no_field (gf_tag f) -> tag_parts (gf_tag f) n o -> ~ demanded n o ->
    incomparable (gf_type f) -> field_written f v buf first buf first Crash
| fw_hidden n o v buf first : ~ no_field (gf_tag f) -> tag_parts (gf_tag f) n o -> gf_exported f = false ->
    (demanded n o \/ ~ has_nil (gf_type f) \/ ~ vanishes (gf_type f) v) -> field_written f v buf first buf first Crash
| fw_slice n o k e l buf first buf' first' r : ~ no_field (gf_tag f) -> tag_parts (gf_tag f) n o -> gf_exported f = true ->
    (demanded n o \/ l <> None) -> n <> B "#" -> gf_type f = GSlice k e -> mute (gf_type f) ->
    items_written n e match l with Some l => l | None => [] end buf first buf' first' r ->
    field_written f (VSlice l) buf first buf' first' r
| fw_value n o v buf first buf' r : ~ no_field (gf_tag f) -> tag_parts (gf_tag f) n o -> gf_exported f = true ->
    (demanded n o \/ ~ incomparable (gf_type f) /\ ~ vanishes (gf_type f) v) ->
    (n = B "#" \/ (exists m, writes_itself (gf_type f) v m) \/ forall k e, gf_type f <> GSlice k e) ->
    value_written (gf_type f) v (buf ++ lead n first) buf' r ->
    field_written f v buf first buf' false r.

(** [struct_written fs vs buf first buf' c]: the fields in order, up to the first that fails *)
Inductive struct_written : list gfield -> list gval -> bytes -> bool -> bytes -> conclusion -> Prop :=
| sw_end buf first : struct_written [] [] buf first buf Fine
| sw_next f fs v vs buf first buf1 first1 buf2 c : field_written f v buf first buf1 first1 Good ->
    struct_written fs vs buf1 first1 buf2 c -> struct_written (f :: fs) (v :: vs) buf first buf2 c
| sw_stop f fs v vs buf first buf1 first1 r : field_written f v buf first buf1 first1 r -> r <> Good -> length fs = length vs ->
    struct_written (f :: fs) (v :: vs) buf first buf1 (conclude f r).

End Write.

(** ** Structures that arrive unchanged *)

Section Arrive.
Variable M : nat -> gmethods.
Variable pf : bool -> bytes -> float_result.

(** [portable t v x]: the value is written as the word [x], and [x] is read as the value. *)
Definition portable (t : gtype) (v : gval) (x : bytes) : Prop :=
  typed t v /\ ~ In " "%byte x /\ (forall buf, value_written M t v buf (buf ++ x) Good) /\ value_read M pf t x (blank t) v Good.
(** A name that can be told from the other words *)
Definition proper (n : bytes) : Prop := ~ no_field n /\ n <> B "#" /\ ~ In " "%byte n.

(** [arrives f v xs]: the texts by which the field arrives; those of a slice with at least one. *)
Inductive arrives (f : gfield) : gval -> list bytes -> Prop :=
| ar_skip : no_field (gf_tag f) -> arrives f (blank (gf_type f)) []
| ar_word o v x : tag_parts (gf_tag f) (B "#") o -> gf_exported f = true -> portable (gf_type f) v x -> arrives f v [x]
| ar_omitted n o : tag_parts (gf_tag f) n o -> proper n -> ~ demanded n o -> ~ incomparable (gf_type f) ->
    (gf_exported f = true \/ has_nil (gf_type f)) -> arrives f (blank (gf_type f)) []
| ar_none n o k e : tag_parts (gf_tag f) n o -> proper n -> gf_exported f = true -> gf_type f = GSlice k e -> mute M (gf_type f) ->
    arrives f (VSlice None) []
| ar_items n o k e l xs : tag_parts (gf_tag f) n o -> proper n -> gf_exported f = true -> gf_type f = GSlice k e ->
    mute M (gf_type f) -> plain M (gf_type f) -> xs <> [] -> Forall2 (portable e) l xs -> arrives f (VSlice (Some l)) xs
| ar_value n o v x : tag_parts (gf_tag f) n o -> proper n -> gf_exported f = true ->
    (demanded n o \/ ~ incomparable (gf_type f) /\ v <> blank (gf_type f)) ->
    ((exists m, writes_itself M (gf_type f) v m) /\ (exists d, decodes_itself M (gf_type f) d) \/ forall k e, gf_type f <> GSlice k e) ->
    portable (gf_type f) v x -> arrives f v [x].

(** The words of all fields *)
Inductive all_arrive : list gfield -> list gval -> list bytes -> Prop :=
| aa_end : all_arrive [] [] []
| aa_next f fs n o v vs xs ws : tag_parts (gf_tag f) n o -> arrives f v xs -> all_arrive fs vs ws ->
    all_arrive (f :: fs) (v :: vs) (map (app (if bytes_eqb n (B "#") then [] else n)) xs ++ ws).

(** Neither name begins with the other. *)
Definition distinguished (f g : gfield) : Prop :=
  forall n o m p r, tag_parts (gf_tag f) n o -> tag_parts (gf_tag g) m p -> ~ no_field n -> ~ no_field m -> n <> m ++ r /\ m <> n ++ r.
(** Fields without name stand before those with a name, which are distinguished. *)
Definition orderly (fs : list gfield) : Prop :=
  exists ps ns, fs = ps ++ ns /\
    Forall (fun f => no_field (gf_tag f) \/ exists o, tag_parts (gf_tag f) (B "#") o) ps /\
    Forall (fun f => forall o, ~ tag_parts (gf_tag f) (B "#") o) ns /\
    ForallOrdPairs distinguished ns.

End Arrive.

(** Methods that write behind what the buffer holds, whatever that is *)
Definition appending_methods (M : nat -> gmethods) : Prop :=
  (forall n f v, gm_value (M n) = Some f -> exists x r, forall buf, f v buf = (buf ++ x, r)) /\
  (forall n f p, gm_pointer (M n) = Some f -> exists x r, forall buf, f p buf = (buf ++ x, r)).

(** The types a type is made of *)
Inductive part : gtype -> gtype -> Prop :=
| pt_self t : part t t
| pt_item n e t : part e t -> part (GSlice n e) t
| pt_target e t : part e t -> part (GPtr e) t.
(** UnmarshalADC of the types of the fields leaves values of the type. *)
Definition faithful (M : nat -> gmethods) (fs : list gfield) : Prop :=
  forall f t d, In f fs -> part (gf_type f) t -> decodes_itself M t d -> forall old x v r, typed t old -> d old x = (v, r) -> typed t v.
