(** Marshal and Unmarshal, adc/marshal.go, for structures of any program.

    reflect is replaced by descriptions of types.  The platform has 64 bit integers.  Fields of interface types do not
    occur, pointers are not shared and lead to no cycles.  The methods of the types of fields may do with the buffer
    what they like, but change no other value. *)
From Verif Require Import Base Num Tiger AdcText AdcValue AdcReuse.

(** Sizes of integers, reflect.Int8 .. reflect.Uint64 (adc/marshal.go:53-58,172-179); int and uint have 64 bits *)
Inductive bits := Bits8 | Bits16 | Bits32 | Bits64.
(** Types of fields by their kind (adc/marshal.go:52-95,167-194): a named type is known by a number, which leads to its
    methods.  [GData] is any other kind (floats, arrays, maps, structures ...), with whether its values can be compared
    and the contents of its zero value. *)
Inductive gtype :=
| GString (n : nat)
| GBool (n : nat)
| GInt (n : nat) (w : bits)
| GUint (n : nat) (w : bits)
| GData (n : nat) (comparable : bool) (z : bytes)
| GSlice (n : nat) (t : gtype)
| GPtr (t : gtype).
(** Values of fields, adc/marshal.go:43,161; nil slices differ from empty ones *)
Inductive gval :=
| VStr (s : bytes)
| VBool (b : bool)
| VInt (z : Z)
| VUint (n : N)
| VData (d : bytes)
| VSlice (l : option (list gval))
| VPtr (p : option gval).

(** The methods of a named type: MarshalADC of the value or of the pointer (None: nil), and UnmarshalADC of the pointer
    (adc/marshal.go:34-41).  They return the contents of the buffer, or of the value, and how they end. *)
Record gmethods := mkMethods {
  gm_value : option (gval -> bytes -> bytes * mend);
  gm_pointer : option (option gval -> bytes -> bytes * mend);
  gm_decode : option (gval -> bytes -> gval * mend) }.
(** A type without methods, adc/marshal.go:34-41 *)
Definition no_methods : gmethods := mkMethods None None None.

(** A field of a structure: reflect.StructField with Tag.Get(`adc`), adc/marshal.go:115-116,234-235 *)
Record gfield := mkField { gf_name : bytes; gf_exported : bool; gf_tag : bytes; gf_type : gtype }.

(** What the program gets: nothing, the error on a field, another error, a panic (adc/marshal.go:99-159,207-272) *)
Inductive gend := EndDone | EndField (name : bytes) (e : error) | EndError (e : error) | EndPanic.
(** The error of a value becomes that of its field, adc/marshal.go:123,137,145,154,251,260,267 *)
Definition on_field (f : gfield) (r : mend) : gend :=
  match r with MDone => EndDone | MFail e => EndField (gf_name f) e | MPanic => EndPanic end.

(** reflect.Zero, adc/marshal.go:49,77,142,202 *)
Definition g_zero (t : gtype) : gval :=
  match t with
  | GString _ => VStr []
  | GBool _ => VBool false
  | GInt _ _ => VInt 0
  | GUint _ _ => VUint 0
  | GData _ _ z => VData z
  | GSlice _ _ => VSlice None
  | GPtr _ => VPtr None
  end.

(** isZero, adc/marshal.go:197-204: comparing values that cannot be compared panics *)
Definition g_is_zero (t : gtype) (v : gval) : res bool :=
  match t, v with
  | GPtr _, VPtr p => Ok match p with None => true | Some _ => false end
  | GSlice _ _, VSlice l => Ok match l with None => true | Some _ => false end
  | GString _, VStr s => Ok match s with [] => true | _ => false end
  | GBool _, VBool b => Ok (negb b)
  | GInt _ _, VInt z => Ok (Z.eqb z 0)
  | GUint _ _, VUint n => Ok (N.eqb n 0)
  | GData _ true z, VData d => Ok (bytes_eqb d z)
  | _, _ => Panic
  end.

(** The tag before the first comma, strings.SplitN in adc/marshal.go:116,239-240 *)
Definition tag_name (tag : bytes) : bytes := match cut "," tag with Some (a, _) => a | None => tag end.
(** Whether "req" is what follows the comma, adc/marshal.go:242-244 *)
Definition tag_req (tag : bytes) : bool := match cut "," tag with Some (_, r) => bytes_eqb r (B "req") | None => false end.
(** Tags that are skipped, adc/marshal.go:117,236 *)
Definition tag_skips (tag : bytes) : bool := (bytes_eqb tag [] || bytes_eqb tag (B "-"))%bool.
(** The tag "#", adc/marshal.go:119,229,241,255 *)
Definition tag_hash (tag : bytes) : bool := bytes_eqb tag (B "#").

(** int16(x) and so on, reflect.Value.SetInt in adc/marshal.go:70 *)
Definition wrap (w : bits) (z : Z) : Z :=
  let m := match w with Bits8 => 8 | Bits16 => 16 | Bits32 => 32 | Bits64 => 64 end%Z in
  ((z + 2 ^ (m - 1)) mod 2 ^ m - 2 ^ (m - 1))%Z.
(** bits, adc/marshal.go:54-58: whether it is 32 *)
Definition short_int (w : bits) : bool := match w with Bits64 => false | _ => true end.
(** strconv.ParseInt(s, 10, 64) or 32, adc/marshal.go:60 *)
Definition parse_int (short : bool) (s : bytes) : res Z :=
  match parse_int64 s with
  | Ok z => if (short && negb ((- 2 ^ 31 <=? z) && (z <? 2 ^ 31)))%Z%bool then Err (EText "range") else Ok z
  | r => r
  end.

Section Reflect.
Variable methods : nat -> gmethods.
(** strconv.ParseFloat with 32 bits or not, math.Round and the conversion to int64, adc/marshal.go:62-68 *)
Variable parse_float : bool -> bytes -> float_result.

(** The methods of a type, adc/marshal.go:44-45,135,162-163,248; a pointer to a pointer has none *)
Definition methods_of (t : gtype) : gmethods :=
  match t with
  | GString n | GBool n | GInt n _ | GUint n _ | GData n _ _ | GSlice n _ => methods n
  | GPtr _ => no_methods
  end.

(** unmarshalValue, adc/marshal.go:43-96: the value and how it ends *)
Fixpoint g_decode (t : gtype) (s : bytes) (old : gval) : gval * mend :=
  match gm_decode (methods_of t) with
  | Some f => f old s
  | None =>
      match s with
      | [] => (g_zero t, MDone)
      | c :: more =>
          match t with
          | GInt _ Bits8 => (old, MFail (EText "unknown type"))
          | GInt _ w =>
              match parse_int (short_int w) s with
              | Ok z => (VInt (wrap w z), MDone)
              | Err e =>
                  match parse_float (short_int w) s with
                  | FErr => (old, MFail e)
                  | FFrac => (old, MDone)
                  | FInt z => (VInt (wrap w z), MDone)
                  end
              | Panic => (old, MPanic)
              end
          | GString _ => (VStr (unescape s), MDone)
          | GPtr t' =>
              match g_decode t' s (g_zero t') with
              | (v, MDone) => (VPtr (Some v), MDone)
              | (_, r) => (old, r)
              end
          | GBool _ =>
              match more with
              | [] => (VBool (negb (beq c x00)), MDone)
              | _ => (old, MFail (EText "invalid bool value"))
              end
          | _ => (old, MFail (EText "unknown type"))
          end
      end
  end.

(** The loop over the elements of a slice, adc/marshal.go:142-147 *)
Fixpoint g_elements (t : gtype) (vs : list bytes) : list gval * mend :=
  match vs with
  | [] => ([], MDone)
  | s :: r =>
      match g_decode t s (g_zero t) with
      | (v, MDone) => let '(l, e) := g_elements t r in (v :: l, e)
      | (_, e) => ([], e)
      end
  end.

(** The values of a tag, adc/marshal.go:134-156 *)
Definition g_named (t : gtype) (vs : list bytes) (old : gval) : gval * mend :=
  match vs with
  | [] => (old, MDone)
  | s :: more =>
      match gm_decode (methods_of t) with
      | Some f => f old s
      | None =>
          match t with
          | GSlice _ e =>
              match g_elements e vs with
              | (l, MDone) => (VSlice (Some l), MDone)
              | (_, r) => (old, r)
              end
          | _ =>
              match more with
              | [] => g_decode t s old
              | _ => (old, MFail (EText "expected single value"))
              end
          end
      end
  end.

(** The loop of Unmarshal, adc/marshal.go:113-157: the fields of the structure and how it ends.  The address of a field
    that is not exported cannot be used (lines 44,135). *)
Fixpoint g_fields (fs : list gfield) (sub : list bytes) (old : list gval) : list gval * gend :=
  match fs, old with
  | f :: fs', v :: old' =>
      let tag := tag_name (gf_tag f) in
      if tag_skips tag then let '(l, r) := g_fields fs' sub old' in (v :: l, r)
      else if tag_hash tag then
        match sub with
        | [] => (v :: old', EndPanic)
        | s :: sub' =>
            if gf_exported f then
              match g_decode (gf_type f) s v with
              | (v', MDone) => let '(l, r) := g_fields fs' sub' old' in (v' :: l, r)
              | (v', r) => (v' :: old', on_field f r)
              end
            else (v :: old', EndPanic)
        end
      else
        match tagged tag sub with
        | [] => let '(l, r) := g_fields fs' sub old' in (v :: l, r)
        | vs =>
            if gf_exported f then
              match g_named (gf_type f) vs v with
              | (v', MDone) => let '(l, r) := g_fields fs' sub old' in (v' :: l, r)
              | (v', r) => (v' :: old', on_field f r)
              end
            else (v :: old', EndPanic)
        end
  | _, _ => (old, EndDone)
  end.
(** Unmarshal into a structure without UnmarshalADC, adc/marshal.go:111-158 *)
Definition g_unmarshal (fs : list gfield) (s : bytes) (old : list gval) : list gval * gend :=
  g_fields fs (split_byte " " s) old.

(** The MarshalADC method of a value of a type, adc/marshal.go:162-165,248: that of the type, or for pointers that of
    the type they point to.  A nil pointer has no value for the method to be called with. *)
Definition g_method (t : gtype) (v : gval) : option (bytes -> bytes * mend) :=
  match t, v with
  | GPtr t', VPtr p =>
      match gm_value (methods_of t'), gm_pointer (methods_of t') with
      | Some f, _ => Some match p with Some x => f x | None => fun buf => (buf, MPanic) end
      | None, Some f => Some (f p)
      | None, None => None
      end
  | _, _ => match gm_value (methods_of t) with Some f => Some (f v) | None => None end
  end.

(** marshalValue, adc/marshal.go:161-195: the contents of the buffer and how it ends *)
Fixpoint g_encode (t : gtype) (v : gval) (buf : bytes) : bytes * mend :=
  match g_method t v with
  | Some f => f buf
  | None =>
      match t, v with
      | GString _, VStr s => (buf ++ escape s, MDone)
      | GInt _ Bits8, _ | GUint _ Bits8, _ => (buf, MFail (EText "unsupported type"))
      | GInt _ _, VInt z => (buf ++ format_int z, MDone)
      | GUint _ _, VUint n => (buf ++ format_uint n, MDone)
      | GBool _, VBool b => (buf ++ (if b then B "1" else B "0"), MDone)
      | GPtr t', VPtr p => match p with None => (buf, MDone) | Some x => g_encode t' x buf end
      | _, _ => (buf, MFail (EText "unsupported type"))
      end
  end.

(** writeTag, adc/marshal.go:222-232 *)
Definition g_write_tag (tag : bytes) (buf : bytes) (first : bool) : bytes :=
  buf ++ (if first then [] else B " ") ++ (if tag_hash tag then [] else tag).
(** The loop over a slice, adc/marshal.go:256-262: the buffer, whether nothing has been written yet, and the end *)
Fixpoint g_encode_all (tag : bytes) (t : gtype) (l : list gval) (buf : bytes) (first : bool) : bytes * bool * mend :=
  match l with
  | [] => (buf, first, MDone)
  | v :: r =>
      match g_encode t v (g_write_tag tag buf first) with
      | (buf', MDone) => g_encode_all tag t r buf' false
      | (buf', e) => (buf', false, e)
      end
  end.
(** The body of the loop of Marshal, adc/marshal.go:239-269.  The value of a field that is not exported cannot be taken
    (lines 202,248), only compared to nil. *)
Definition g_marshal_field (f : gfield) (v : gval) (buf : bytes) (first : bool) : bytes * bool * mend :=
  let tag := tag_name (gf_tag f) in
  let omit := (negb (tag_hash tag) && negb (tag_req (gf_tag f)))%bool in
  let nilable := match gf_type f with GPtr _ | GSlice _ _ => true | _ => false end in
  if (omit && negb nilable && negb (gf_exported f))%bool then (buf, first, MPanic)
  else match (if omit then g_is_zero (gf_type f) v else Ok false) with
  | Ok true => (buf, first, MDone)
  | Ok false =>
      if gf_exported f then
        match g_method (gf_type f) v with
        | Some m => let '(buf', r) := m (g_write_tag tag buf first) in (buf', false, r)
        | None =>
            match gf_type f, v with
            | GSlice _ e, VSlice l =>
                if tag_hash tag then let '(buf', r) := g_encode (gf_type f) v (g_write_tag tag buf first) in (buf', false, r)
                else g_encode_all tag e match l with Some l => l | None => [] end buf first
            | _, _ => let '(buf', r) := g_encode (gf_type f) v (g_write_tag tag buf first) in (buf', false, r)
            end
        end
      else (buf, first, MPanic)
  | _ => (buf, first, MPanic)
  end.
(** The loop of Marshal, adc/marshal.go:233-270 *)
Fixpoint g_marshal_fields (fs : list gfield) (vs : list gval) (buf : bytes) (first : bool) : bytes * gend :=
  match fs, vs with
  | f :: fs', v :: vs' =>
      if tag_skips (gf_tag f) then g_marshal_fields fs' vs' buf first
      else match g_marshal_field f v buf first with
           | (buf', first', MDone) => g_marshal_fields fs' vs' buf' first'
           | (buf', _, r) => (buf', on_field f r)
           end
  | _, _ => (buf, EndDone)
  end.
(** Marshal of a structure without MarshalADC, adc/marshal.go:220-272 *)
Definition g_marshal (fs : list gfield) (vs : list gval) (buf : bytes) : bytes * gend := g_marshal_fields fs vs buf true.

End Reflect.

(** ** What the two functions are called with *)

(** The argument of Marshal, adc/marshal.go:207-219: nil, a message with MarshalADC, a structure or a pointer to one, or anything else *)
Inductive gsource :=
| SNil
| SOwn (m : bytes -> bytes * mend)
| SStruct (fs : list gfield) (vs : list gval)
| SPointer (p : option (list gfield * list gval))
| SOther.
(** Marshal, adc/marshal.go:207-272; the element of a nil pointer has no kind *)
Definition g_marshal_any (methods : nat -> gmethods) (o : gsource) (buf : bytes) : bytes * gend :=
  match o with
  | SNil => (buf, EndDone)
  | SOwn m => let '(buf', r) := m buf in (buf', match r with MDone => EndDone | MFail e => EndError e | MPanic => EndPanic end)
  | SStruct fs vs | SPointer (Some (fs, vs)) => g_marshal methods fs vs buf
  | SPointer None | SOther => (buf, EndError (EText "struct expected"))
  end.
(** A message of a program, adc/messages.go:22-24, with what Marshal makes of it *)
Definition g_message (methods : nat -> gmethods) (name : bytes) (o : gsource) : custom :=
  mkCustom name (fun buf => let '(buf', r) := g_marshal_any methods o buf in
    (buf', match r with EndDone => MDone | EndField _ e | EndError e => MFail e | EndPanic => MPanic end)).

(** The argument of Unmarshal, adc/marshal.go:99-110: with UnmarshalADC (and what the method leaves), a pointer to a structure,
    to anything else, or no pointer *)
Inductive gtarget :=
| TOwn (m : bytes -> mend)
| TPointer (p : option (list gfield * list gval))
| TOtherPointer
| TNoPointer.
(** Unmarshal, adc/marshal.go:99-159: the fields of the structure, if it is one, and the end *)
Definition g_unmarshal_any (methods : nat -> gmethods) (pf : bool -> bytes -> float_result) (s : bytes) (o : gtarget) : option (list gval) * gend :=
  match o with
  | TOwn m => (None, match m s with MDone => EndDone | MFail e => EndError e | MPanic => EndPanic end)
  | TPointer (Some (fs, vs)) => let '(vs', r) := g_unmarshal methods pf fs s vs in (Some vs', r)
  | TPointer None | TOtherPointer => (None, EndError (EText "struct expected"))
  | TNoPointer => (None, EndError (EText "pointer expected"))
  end.

(** ** The types of the package itself *)

(** What the methods see of a value, adc/types/types.go:42,123-130, adc/types.go:214,277 *)
Definition data_of (v : gval) : bytes := match v with VData d | VStr d => d | _ => [] end.
(** The elements of a slice, adc/types.go:214-222,277-284 *)
Definition items_of (v : gval) : list bytes := match v with VSlice (Some l) => map data_of l | _ => [] end.
(** A slice with elements, or nil: adc/types.go:227-242,290-300 *)
Definition slice_of (f : bytes -> gval) (l : list bytes) : gval := match l with [] => VSlice None | _ => VSlice (Some (map f l)) end.
(** How a method ends, adc/types/types.go:46-54,123-130 *)
Definition mend_of {A} (r : res A) : mend := match r with Ok _ => MDone | Err e => MFail e | Panic => MPanic end.
(** The methods of types.SID (1), types.CID (2), tiger.Hash (3), ExtFeatures (4) and Path (5): adc/types/types.go:42-54,115-130,
    tiger/tiger.go:72-91, adc/types.go:214-242,277-300 *)
Definition package_methods (n : nat) : gmethods :=
  match n with
  | 1 => mkMethods (Some (fun v buf => (buf ++ data_of v, MDone))) None
      (Some (fun old s => match sid_unmarshal s with Ok id => (VData id, MDone) | r => (old, mend_of r) end))
  | 2 => mkMethods (Some (fun v buf => (buf ++ hash_base32 (data_of v), MDone))) None
      (Some (fun old s => let '(r, h) := cid_from_base32 (data_of old) s in (VData h, mend_of r)))
  | 3 => mkMethods (Some (fun v buf => (buf ++ hash_base32 (data_of v), MDone))) None
      (Some (fun old s => let '(r, h) := hash_unmarshal_base32 (data_of old) s in (VData h, mend_of r)))
  | 4 => mkMethods (Some (fun v buf => (buf ++ features_marshal (items_of v), MDone))) None
      (Some (fun old s => match features_unmarshal (items_of old) s with Ok l => (slice_of VData l, MDone) | r => (old, mend_of r) end))
  | 5 => mkMethods (Some (fun v buf => (buf ++ path_marshal (items_of v), MDone))) None
      (Some (fun old s => (slice_of VStr (path_unmarshal (items_of old) s), MDone)))
  | _ => no_methods
  end.
(** The types of the fields of the messages of the package: adc/chat.go:7-12, adc/connect.go:8-21, adc/files.go:19-22,
    adc/hub.go:48-55,91-106, adc/search.go:31-63, adc/user.go:56-99,113-144 *)
Fixpoint kind_type (k : kind) : gtype :=
  match k with
  | KStr => GString 0 | KInt => GInt 0 Bits64 | KBool => GBool 0
  | KSid => GData 1 true (repeat x00 4)
  | KCid => GData 2 true (repeat x00 hash_size)
  | KTth => GData 3 true (repeat x00 hash_size)
  | KFeas => GSlice 4 (GData 0 true (repeat x00 4))
  | KPath => GSlice 5 (GString 0)
  | KStrs => GSlice 0 (GString 0)
  | KPtr k' => GPtr (kind_type k')
  end.
(** and their values, in the sources above (adc/user.go:56-99) *)
Fixpoint kind_val (k : kind) : val k -> gval :=
  match k with
  | KStr => VStr | KInt => VInt | KBool => VBool
  | KSid | KCid | KTth => VData
  | KFeas => slice_of VData
  | KPath | KStrs => slice_of VStr
  | KPtr k' => fun v => VPtr (option_map (kind_val k') v)
  end.
(** A field of such a message, adc/user.go:56-99 *)
Definition package_field (f : field) : gfield :=
  mkField (B (f_name f)) true (f_tag f ++ if f_req f then B ",req" else []) (kind_type (f_kind f)).
(** The values of its fields, adc/user.go:56-99 *)
Fixpoint package_vals (fs : list field) : vals fs -> list gval :=
  match fs with
  | [] => fun _ => []
  | f :: r => fun v => kind_val (f_kind f) (fst v) :: package_vals r (snd v)
  end.
