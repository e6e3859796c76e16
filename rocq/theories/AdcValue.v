(** adc/marshal.go: Marshal and Unmarshal of structures whose fields carry an adc tag, and the
    field types of adc/types.go.

    reflect is replaced by a description of the structure: a list of fields with name, tag
    and kind.  Kinds cover the field types that occur in package adc; integers of every named
    type (int, int64, FileType, Category, UserType, AwayType, ExtGroup) are 64 bit, fields of
    16, 32 bit or unsigned types do not occur.  A nil slice and an empty one are the same value.
    When Unmarshal fails the Go code leaves the structure half filled in; here it is dropped. *)
From Verif Require Import Base Num Base32 Tiger AdcText.

(** strconv.ParseFloat and what adc/marshal.go:62-68 makes of it. *)
Inductive float_result :=
| FErr                (** ParseFloat fails *)
| FFrac               (** math.Round(vf) != vf: a fraction or NaN *)
| FInt (v : Z).       (** int64(vf) *)

(** Kinds of fields: string, int/int64, bool, types.SID, types.CID, tiger.Hash, ExtFeatures, Path,
    []string, pointers (adc/chat.go:7-12, adc/connect.go:8-21, adc/files.go:19-22, adc/hub.go:48-55,91-106,
    adc/search.go:31-63, adc/user.go:56-99,113-144). *)
Inductive kind :=
| KStr | KInt | KBool | KSid | KCid | KTth | KFeas | KPath | KStrs
| KPtr (k : kind).

(** The Go values of a field; types.SID (adc/types/types.go:34) and Feature (adc/types.go:73) are four
    bytes, CID and Hash 24 bytes (adc/types/types.go:84). *)
Fixpoint val (k : kind) : Type :=
  match k with
  | KStr => bytes
  | KInt => Z
  | KBool => bool
  | KSid | KCid | KTth => bytes
  | KFeas | KPath | KStrs => list bytes
  | KPtr k' => option (val k')
  end.

(** A field with its tag (the part before ",req") and whether ",req" follows: adc/marshal.go:235-244. *)
Record field := { f_name : string; f_tag : bytes; f_req : bool; f_kind : kind }.

(** Whether the tag is "#": adc/marshal.go:119,229,241 *)
Definition positional (f : field) : bool := bytes_eqb (f_tag f) (B "#").

(** Values of a structure, field by field: reflect.Value.Field, adc/marshal.go:122,245 *)
Fixpoint vals (fs : list field) : Type :=
  match fs with
  | [] => unit
  | f :: r => (val (f_kind f) * vals r)%type
  end.

(** reflect.Zero, adc/marshal.go:49,202; also the contents of a new structure (adc/messages.go:47) *)
Definition zero (k : kind) : val k :=
  match k with
  | KStr => []
  | KInt => 0%Z
  | KBool => false
  | KSid => repeat x00 4
  | KCid | KTth => repeat x00 hash_size
  | KFeas | KPath | KStrs => []
  | KPtr _ => None
  end.
(** A new structure, adc/messages.go:47 *)
Fixpoint zeros (fs : list field) : vals fs :=
  match fs with
  | [] => tt
  | f :: r => (zero (f_kind f), zeros r)
  end.

(** isZero, adc/marshal.go:197-204 *)
Definition is_zero (k : kind) : val k -> bool :=
  match k with
  | KStr => fun v => match v with [] => true | _ => false end
  | KInt => fun v => Z.eqb v 0
  | KBool => negb
  | KSid => fun v => bytes_eqb v (repeat x00 4)
  | KCid | KTth => fun v => bytes_eqb v (repeat x00 hash_size)
  | KFeas | KPath | KStrs => fun v => match v with [] => true | _ => false end
  | KPtr _ => fun v => match v with None => true | _ => false end
  end.

(** ** Field types with their own text form, adc/types.go *)

(** Feature.UnmarshalADC, adc/types.go:84-92 *)
Definition feature_unmarshal (s : bytes) : res bytes :=
  if (length s =? 4)%nat then Ok s else Err (EText "malformed feature").

(** The loop of ExtFeatures.UnmarshalADC, adc/types.go:233-239 *)
Fixpoint features_loop (sub : list bytes) : res (list bytes) :=
  match sub with
  | [] => Ok []
  | s :: r => do f <- feature_unmarshal s; do l <- features_loop r; Ok (f :: l)
  end.
(** ExtFeatures.MarshalADC and UnmarshalADC, adc/types.go:214-242 *)
Definition features_marshal (l : list bytes) : bytes := join (B ",") l.
(** ExtFeatures.UnmarshalADC, adc/types.go:227-242 *)
Definition features_unmarshal (old : list bytes) (s : bytes) : res (list bytes) :=
  match s with
  | [] => Ok old
  | _ => features_loop (split_byte "," s)
  end.

(** Path.MarshalADC and UnmarshalADC, adc/types.go:277-300 *)
Definition path_marshal (p : list bytes) : bytes := join (B "/") (map escape p).
(** Path.UnmarshalADC, adc/types.go:290-300 *)
Definition path_unmarshal (old : list bytes) (s : bytes) : list bytes := old ++ map unescape (split_byte "/" s).

(** ** Values, adc/marshal.go *)

(** marshalValue, adc/marshal.go:161-195, and the MarshalADC methods called there and in line 250;
    no case of the kinds of this model fails.  A nil pointer writes nothing (its field is omitted). *)
Fixpoint marshal_value (k : kind) : val k -> bytes :=
  match k with
  | KStr => escape
  | KInt => format_int
  | KBool => fun v => if v then B "1" else B "0"
  | KSid => fun v => v
  | KCid | KTth => hash_base32
  | KFeas => features_marshal
  | KPath => path_marshal
  | KStrs => fun _ => []
  | KPtr k' => fun v => match v with None => [] | Some x => marshal_value k' x end
  end.

(** Whether a pointer to the field implements Unmarshaler: adc/marshal.go:44-46,135 *)
Definition unmarshaler (k : kind) : bool :=
  match k with KSid | KCid | KTth | KFeas | KPath => true | _ => false end.

Section Decode.

Variable parse_float : bytes -> float_result.

(** What a Hash method returns, with the new value (tiger/tiger.go:82-91, adc/types/types.go:123-130). *)
Definition of_hash (r : res unit * bytes) : res bytes :=
  match r with
  | (Ok _, h) => Ok h
  | (Err e, _) => Err e
  | (Panic, _) => Panic
  end.

(** The integer case of unmarshalValue, adc/marshal.go:53-71.  A fraction is not an error: line 66
    returns err2, which is nil, and the field keeps its value. *)
Definition unmarshal_int (s : bytes) (old : Z) : res Z :=
  match parse_int64 s with
  | Ok v => Ok v
  | Err e =>
      match parse_float s with
      | FErr => Err e
      | FFrac => Ok old
      | FInt v => Ok v
      end
  | Panic => Panic
  end.

(** unmarshalValue, adc/marshal.go:43-96 *)
Fixpoint unmarshal_value (k : kind) (s : bytes) : val k -> res (val k) :=
  match k with
  | KSid => fun _ => sid_unmarshal s
  | KCid => fun old => of_hash (cid_from_base32 old s)
  | KTth => fun old => of_hash (hash_unmarshal_base32 old s)
  | KFeas => fun old => features_unmarshal old s
  | KPath => fun old => Ok (path_unmarshal old s)
  | KStr => fun _ => Ok (unescape s)
  | KInt => fun old => match s with [] => Ok 0%Z | _ => unmarshal_int s old end
  | KPtr k' => fun _ =>
      match s with
      | [] => Ok None
      | _ => do v <- unmarshal_value k' s (zero k'); Ok (Some v)
      end
  | KBool => fun _ =>
      match s with
      | [] => Ok false
      | [c] => Ok (negb (beq c x00))
      | _ => Err (EText "invalid bool value")
      end
  | KStrs => fun _ => match s with [] => Ok [] | _ => Err (EText "unknown type") end
  end.

(** The values of a tag among the remaining fields of the message, adc/marshal.go:127-133 *)
Definition tagged (tag : bytes) (sub : list bytes) : list bytes :=
  map (trim_prefix tag) (filter (has_prefix tag) sub).

(** Unmarshal for the values of one tag, adc/marshal.go:134-156; the elements of a slice are strings,
    for which unmarshalValue is unescape (lines 48-51,72-74). *)
Definition unmarshal_tagged (k : kind) (vs : list bytes) (old : val k) : res (val k) :=
  match vs with
  | [] => Ok old
  | v :: more =>
      if unmarshaler k then unmarshal_value k v old
      else match k as k0 return val k0 -> res (val k0) with
           | KStrs => fun _ => Ok (map unescape vs)
           | k0 => fun old0 =>
               match more with
               | [] => unmarshal_value k0 v old0
               | _ => Err (EText "expected single value")
               end
           end old
  end.

(** The loop of Unmarshal, adc/marshal.go:114-157; [sub[0]] panics when nothing is left. *)
Fixpoint unmarshal_fields (fs : list field) : list bytes -> vals fs -> res (vals fs) :=
  match fs with
  | [] => fun _ _ => Ok tt
  | f :: r => fun sub old =>
      if positional f then
        match sub with
        | [] => Panic
        | v :: sub' =>
            do x <- unmarshal_value (f_kind f) v (fst old);
            do l <- unmarshal_fields r sub' (snd old);
            Ok (x, l)
        end
      else
        do x <- unmarshal_tagged (f_kind f) (tagged (f_tag f) sub) (fst old);
        do l <- unmarshal_fields r sub (snd old);
        Ok (x, l)
  end.

(** Unmarshal into a structure, adc/marshal.go:99-159 *)
Definition unmarshal_struct (fs : list field) (s : bytes) (old : vals fs) : res (vals fs) :=
  unmarshal_fields fs (split_byte " " s) old.

End Decode.

(** writeTag, adc/marshal.go:222-232: the buffer and [first] *)
Definition write_tag (f : field) (st : bytes * bool) : bytes * bool :=
  let '(buf, first) := st in
  (buf ++ (if first then [] else B " ") ++ (if positional f then [] else f_tag f), false).
(** A value after its tag: adc/marshal.go:249-250,257-258,264-265 *)
Definition write_value (f : field) (text : bytes) (st : bytes * bool) : bytes * bool :=
  let '(buf, first) := write_tag f st in (buf ++ text, first).

(** The body of the loop of Marshal, adc/marshal.go:241-269 *)
Definition marshal_field (f : field) (v : val (f_kind f)) (st : bytes * bool) : bytes * bool :=
  if (negb (positional f) && negb (f_req f) && is_zero (f_kind f) v)%bool then st
  else match f_kind f as k return val k -> bytes * bool with
       | KStrs => fun l => fold_left (fun s x => write_value f (escape x) s) l st
       | k => fun x => write_value f (marshal_value k x) st
       end v.
(** The loop of Marshal, adc/marshal.go:233-270 *)
Fixpoint marshal_fields (fs : list field) : vals fs -> bytes * bool -> bytes * bool :=
  match fs with
  | [] => fun _ st => st
  | f :: r => fun v st => marshal_fields r (snd v) (marshal_field f (fst v) st)
  end.

(** Marshal of a structure, adc/marshal.go:207-272: the bytes appended to the buffer *)
Definition marshal_struct (fs : list field) (v : vals fs) : bytes := fst (marshal_fields fs v ([], true)).

(** Access to the fields of a structure by name, for example u.Version in adc/user.go:106-110 *)
Definition cast (k k' : kind) : val k -> option (val k') :=
  match k, k' with
  | KStr, KStr => fun v => Some v
  | KInt, KInt => fun v => Some v
  | KBool, KBool => fun v => Some v
  | _, _ => fun _ => None
  end.
(** A field by its name, adc/user.go:106-110 *)
Fixpoint get_field (k : kind) (n : string) (fs : list field) : vals fs -> option (val k) :=
  match fs with
  | [] => fun _ => None
  | f :: r => fun v => if String.eqb (f_name f) n then cast (f_kind f) k (fst v) else get_field k n r (snd v)
  end.
Arguments get_field k n%string fs v.
(** A string field, adc/user.go:106-110 *)
Definition get_str (n : string) (fs : list field) (v : vals fs) : bytes :=
  match get_field KStr n fs v with Some s => s | None => [] end.
Arguments get_str n%string fs v.
(** Assignment to a string field, adc/user.go:108-109 *)
Fixpoint set_str (n : string) (x : bytes) (fs : list field) : vals fs -> vals fs :=
  match fs with
  | [] => fun v => v
  | f :: r => fun v =>
      if String.eqb (f_name f) n
      then (match f_kind f as k return val k -> val k with KStr => fun _ => x | _ => fun y => y end (fst v), snd v)
      else (fst v, set_str n x r (snd v))
  end.
Arguments set_str n%string x fs v.
