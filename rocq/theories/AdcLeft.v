(** What a message holds after an Unmarshal that returned, whether with an error or not.

    Nothing is said about the message when Unmarshal panics. *)
From Verif Require Import Base Num Base32 Tiger AdcText AdcValue AdcMessage AdcPacket.

Section Left.

Variable parse_float : bytes -> float_result.

(** A field after unmarshalValue, adc/marshal.go:43-96: all cases assign only on success (in lines 48-95,
    adc/types/types.go:46-54,123-130, adc/types.go:227-242) but Hash.UnmarshalBase32, which decodes
    into the array (tiger/tiger.go:82-91). *)
Definition value_left (k : kind) (s : bytes) (old : val k) : val k :=
  match unmarshal_value parse_float k s old with
  | Ok v => v
  | _ => match k as k0 return val k0 -> val k0 with
         | KTth => fun h => snd (hash_unmarshal_base32 h s)
         | _ => fun v => v
         end old
  end.
(** A field after the values of its tag were decoded, adc/marshal.go:134-156 *)
Definition tagged_left (k : kind) (vs : list bytes) (old : val k) : val k :=
  match unmarshal_tagged parse_float k vs old, vs with
  | Ok v, _ => v
  | _, x :: _ => if unmarshaler k then value_left k x old else old
  | _, [] => old
  end.
(** The fields after the loop of Unmarshal, adc/marshal.go:114-157, which stops at the first error *)
Fixpoint fields_left (fs : list field) : list bytes -> vals fs -> vals fs :=
  match fs with
  | [] => fun _ _ => tt
  | f :: r => fun sub old =>
      if positional f then
        match sub with
        | [] => old
        | v :: sub' =>
            (value_left (f_kind f) v (fst old),
             match unmarshal_value parse_float (f_kind f) v (fst old) with
             | Ok _ => fields_left r sub' (snd old)
             | _ => snd old
             end)
        end
      else
        (tagged_left (f_kind f) (tagged (f_tag f) sub) (fst old),
         match unmarshal_tagged parse_float (f_kind f) (tagged (f_tag f) sub) (fst old) with
         | Ok _ => fields_left r sub (snd old)
         | _ => snd old
         end)
  end.

(** The map after one of the loops of ModFeatures.UnmarshalADC, adc/types.go:137-150 *)
Fixpoint mod_loop_left (v : bool) (names : list bytes) (m : fmap) : fmap :=
  match names with
  | [] => m
  | n :: r => match feature_unmarshal n with Ok f => mod_loop_left v r (fm_set f v m) | _ => m end
  end.
(** The map after ModFeatures.UnmarshalADC, adc/types.go:122-152 *)
Definition modfeatures_left (s : bytes) (m : fmap) : fmap :=
  match unmarshal_struct parse_float mod_fields s (zeros mod_fields) with
  | Ok (add, (rm, _)) =>
      match mod_loop false rm m with
      | Ok m1 => mod_loop_left true add m1
      | _ => mod_loop_left false rm m
      end
  | _ => m
  end.

(** The request after GetRequest.UnmarshalADC, adc/files.go:59-105: Start and Bytes are assigned even when
    ParseInt fails (lines 80,92). *)
Definition get_left (old : getreq) (s : bytes) : getreq :=
  match cut " " s with
  | None => old
  | Some (typ, s1) =>
  let t := unescape typ in
  match cut " " s1 with
  | None => {| g_type := t; g_path := g_path old; g_start := g_start old; g_bytes := g_bytes old; g_comp := g_comp old |}
  | Some (path, s2) =>
  let p := unescape path in
  match cut " " s2 with
  | None => {| g_type := t; g_path := p; g_start := g_start old; g_bytes := g_bytes old; g_comp := g_comp old |}
  | Some (start, s3) =>
  let a := parse_int64_value start in
  match parse_int64 start with
  | Ok _ =>
      let '(len, s4) := match cut " " s3 with Some (x, r) => (x, r) | None => (s3, []) end in
      {| g_type := t; g_path := p; g_start := a; g_bytes := parse_int64_value len;
         g_comp := match parse_int64 len with Ok _ => (g_comp old || bytes_eqb s4 (B "ZL1"))%bool | _ => g_comp old end |}
  | _ => {| g_type := t; g_path := p; g_start := a; g_bytes := g_bytes old; g_comp := g_comp old |}
  end end end end.

(** The salt after GetPassword.UnmarshalADC, adc/hub.go:84-89 *)
Definition gpa_left (s : bytes) : bytes :=
  let new := repeat x00 (b32_decoded_len (length s)) in
  match b32_decode_to new s with
  | Some (salt, _, _) => salt
  | None => new
  end.

(** The message after Unmarshal, adc/marshal.go:99-159 with the UnmarshalADC methods: Status (adc/messages.go:218-231)
    and SIDAssign (adc/hub.go:35-37) assign only on success, Fields is emptied first (adc/messages.go:128) and
    assigned at the end (line 146). *)
Definition unmarshal_left (s : bytes) (m : amsg) : amsg :=
  match m with
  | AStruct t v => AStruct t (fields_left (fields_of t) (split_byte " " s) v)
  | ASup f => ASup (modfeatures_left s f)
  | ASta st => ASta (match status_unmarshal s with Ok st' => st' | _ => st end)
  | AZon => AZon
  | AZof => AZof
  | ASid x => ASid (match sid_unmarshal s with Ok y => y | _ => x end)
  | AGpa _ => AGpa (gpa_left s)
  | AGet g => AGet (get_left g s)
  | ASnd g => ASnd (get_left g s)
  | AMod _ => AMod (match fields_unmarshal s with Ok l => l | _ => [] end)
  | ARaw t _ => ARaw t s
  end.

(** The message after decodeMessageTo, adc/packets.go:64-72 *)
Definition decode_message_to_left (p : packet) (m : amsg) : amsg :=
  match message p with
  | ARaw t d => if bytes_eqb (cmd m) t then unmarshal_left d m else m
  | _ => m
  end.

End Left.
