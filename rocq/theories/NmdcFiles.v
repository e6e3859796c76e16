(** nmdc/msg_files.go and nmdc/msg_search.go: file transfer and search messages.
    Conventions as in NmdcChat.v.  When a number or flag does not parse, Go stores what the parser
    returned beside the error: zero ([parse_uint_trim], [unmarshal_flag]) or [atoi_value]. *)
From Verif Require Import Base Num Utf8 NmdcText NmdcChat Base32 Tiger.

(** ** ADCGet *)
(** nmdc/msg_files.go:16-23 *)
Record adcget := mk_adcget { ag_type : bytes; ag_ident : bytes; ag_start : N; ag_length : Z; ag_compressed : bool; ag_downloaded : option N }.
(** assignment to the field type, nmdc/msg_files.go:16-23 *)
Definition set_ag_type (m : adcget) (x : bytes) : adcget := mk_adcget x (m.(ag_ident)) (m.(ag_start)) (m.(ag_length)) (m.(ag_compressed)) (m.(ag_downloaded)).
(** assignment to the field ident, nmdc/msg_files.go:16-23 *)
Definition set_ag_ident (m : adcget) (x : bytes) : adcget := mk_adcget (m.(ag_type)) x (m.(ag_start)) (m.(ag_length)) (m.(ag_compressed)) (m.(ag_downloaded)).
(** assignment to the field start, nmdc/msg_files.go:16-23 *)
Definition set_ag_start (m : adcget) (x : N) : adcget := mk_adcget (m.(ag_type)) (m.(ag_ident)) x (m.(ag_length)) (m.(ag_compressed)) (m.(ag_downloaded)).
(** assignment to the field length, nmdc/msg_files.go:16-23 *)
Definition set_ag_length (m : adcget) (x : Z) : adcget := mk_adcget (m.(ag_type)) (m.(ag_ident)) (m.(ag_start)) x (m.(ag_compressed)) (m.(ag_downloaded)).
(** assignment to the field compressed, nmdc/msg_files.go:16-23 *)
Definition set_ag_compressed (m : adcget) (x : bool) : adcget := mk_adcget (m.(ag_type)) (m.(ag_ident)) (m.(ag_start)) (m.(ag_length)) x (m.(ag_downloaded)).
(** assignment to the field downloaded, nmdc/msg_files.go:16-23 *)
Definition set_ag_downloaded (m : adcget) (x : option N) : adcget := mk_adcget (m.(ag_type)) (m.(ag_ident)) (m.(ag_start)) (m.(ag_length)) (m.(ag_compressed)) x.
(** the zero value, nmdc/msg_files.go:16-23 *)
Definition adcget0 : adcget := mk_adcget [] [] 0 0 false None.

(** nmdc/msg_files.go:29-52 *)
Definition adcget_marshal (enc : codec) (m : adcget) : res bytes :=
  do t <- string_marshal enc m.(ag_type);
  do i <- string_marshal enc m.(ag_ident);
  Ok (t ++ B " " ++ i ++ B " " ++ format_uint m.(ag_start) ++ B " " ++ format_int m.(ag_length) ++
      (if m.(ag_compressed) then B " ZL1" else []) ++
      match m.(ag_downloaded) with Some n => B " DB" ++ format_uint n | None => [] end).

(** The text up to a space, and the text after it (nil without one), nmdc/msg_files.go:84-90,103-109. *)
Definition cut_or_all (data : bytes) : bytes * bytes :=
  match cut " " data with Some p => p | None => (data, []) end.

(** The loop over flags, nmdc/msg_files.go:101-122.  Fuel: every round consumes a byte. *)
Fixpoint adcget_flags (fuel : nat) (m : adcget) (data : bytes) : adcget * res unit :=
  match fuel, data with
  | S f, _ :: _ =>
      let '(field, data) := cut_or_all data in
      if bytes_eqb field (B "ZL1") then adcget_flags f (set_ag_compressed m true) data
      else if has_prefix (B "DB") field then
        match parse_uint_trim (skipn 2 field) with
        | Ok n => adcget_flags f (set_ag_downloaded m (Some n)) data
        | Err _ => (m, Err (EText "ADCGet: unable to parse field 'DownloadedBytes'"))
        | Panic => (m, Panic)
        end
      else adcget_flags f m data
  | _, _ => (m, Ok tt)
  end.

(** nmdc/msg_files.go:54-125 *)
Definition adcget_unmarshal (dec : codec) (m : adcget) (data : bytes) : adcget * res unit :=
  match cut " " data with
  | None => (m, Err (EText "ADCGet: missing separator after field 'ContentType'"))
  | Some (contentType, data) =>
      do t <- string_unmarshal dec contentType keeping m;
      let m := set_ag_type m t in
      match cut " " data with
      | None => (m, Err (EText "ADCGet: missing separator after field 'Identifier'"))
      | Some (identifier, data) =>
          match string_unmarshal dec identifier with
          | Err _ => (m, Err (EText "ADCGet: unable to parse field 2"))
          | Panic => (m, Panic)
          | Ok i =>
              let m := set_ag_ident m i in
              match cut " " data with
              | None => (m, Err (EText "ADCGet: missing separator after field 'Start'"))
              | Some (start, data) =>
                  match parse_uint_trim start with
                  | Err _ => (set_ag_start m 0, Err (EText "ADCGet: unable to parse field 'Start'"))
                  | Panic => (m, Panic)
                  | Ok s =>
                      let m := set_ag_start m s in
                      let '(len, data) := cut_or_all data in
                      if bytes_eqb len (B "-1") then
                        adcget_flags (length data) (set_ag_length m (-1)) data
                      else
                        match parse_uint_trim len with
                        | Err _ => (m, Err (EText "ADCGet: unable to parse field 'Lenght'"))
                        | Panic => (m, Panic)
                        | Ok n => adcget_flags (length data) (set_ag_length m (to_int64 n)) data
                        end
                  end
              end
          end
      end
  end.

(** ** ADCSnd *)
(** nmdc/msg_files.go:127-133 *)
Record adcsnd := mk_adcsnd { as_type : bytes; as_ident : bytes; as_start : N; as_length : N; as_compressed : bool }.
(** assignment to the field type, nmdc/msg_files.go:127-133 *)
Definition set_as_type (m : adcsnd) (x : bytes) : adcsnd := mk_adcsnd x (m.(as_ident)) (m.(as_start)) (m.(as_length)) (m.(as_compressed)).
(** assignment to the field ident, nmdc/msg_files.go:127-133 *)
Definition set_as_ident (m : adcsnd) (x : bytes) : adcsnd := mk_adcsnd (m.(as_type)) x (m.(as_start)) (m.(as_length)) (m.(as_compressed)).
(** assignment to the field start, nmdc/msg_files.go:127-133 *)
Definition set_as_start (m : adcsnd) (x : N) : adcsnd := mk_adcsnd (m.(as_type)) (m.(as_ident)) x (m.(as_length)) (m.(as_compressed)).
(** assignment to the field length, nmdc/msg_files.go:127-133 *)
Definition set_as_length (m : adcsnd) (x : N) : adcsnd := mk_adcsnd (m.(as_type)) (m.(as_ident)) (m.(as_start)) x (m.(as_compressed)).
(** assignment to the field compressed, nmdc/msg_files.go:127-133 *)
Definition set_as_compressed (m : adcsnd) (x : bool) : adcsnd := mk_adcsnd (m.(as_type)) (m.(as_ident)) (m.(as_start)) (m.(as_length)) x.
(** the zero value, nmdc/msg_files.go:127-133 *)
Definition adcsnd0 : adcsnd := mk_adcsnd [] [] 0 0 false.

(** nmdc/msg_files.go:139-155 *)
Definition adcsnd_marshal (enc : codec) (m : adcsnd) : res bytes :=
  do t <- string_marshal enc m.(as_type);
  do i <- string_marshal enc m.(as_ident);
  Ok (t ++ B " " ++ i ++ B " " ++ format_uint m.(as_start) ++ B " " ++ format_uint m.(as_length) ++
      (if m.(as_compressed) then B " ZL1" else [])).

(** nmdc/msg_files.go:157-207 *)
Definition adcsnd_unmarshal (dec : codec) (m : adcsnd) (data : bytes) : adcsnd * res unit :=
  match cut " " data with
  | None => (m, Err (EText "ADCSnd: missing separator after field 1"))
  | Some (contentType, data) =>
      do t <- string_unmarshal dec contentType keeping m;
      let m := set_as_type m t in
      match cut " " data with
      | None => (m, Err (EText "ADCSnd: missing separator after field 2"))
      | Some (identifier, data) =>
          match string_unmarshal dec identifier with
          | Err _ => (m, Err (EText "ADCSnd: unable to parse field 2"))
          | Panic => (m, Panic)
          | Ok i =>
              let m := set_as_ident m i in
              match cut " " data with
              | None => (m, Err (EText "ADCSnd: missing separator after field 3"))
              | Some (start, data) =>
                  match parse_uint_trim start with
                  | Err _ => (set_as_start m 0, Err (EText "ADCSnd: unable to parse field 3"))
                  | Panic => (m, Panic)
                  | Ok s =>
                      let m := set_as_start m s in
                      let '(len, data) := cut_or_all data in
                      match parse_uint_trim len with
                      | Err _ => (set_as_length m 0, Err (EText "ADCSnd: unable to parse field 4"))
                      | Panic => (m, Panic)
                      | Ok n =>
                          let m := set_as_length m n in
                          match data with
                          | [] => (m, Ok tt)
                          | _ => if bytes_eqb data (B "ZL1") then (set_as_compressed m true, Ok tt)
                                 else (m, Err (EText "ADCSnd: invalid field 5"))
                          end
                      end
                  end
              end
          end
      end
  end.

(** ** Direction *)
(** nmdc/msg_files.go:209-212 *)
Record direction := mk_direction { di_upload : bool; di_number : N }.
(** assignment to the field upload, nmdc/msg_files.go:209-212 *)
Definition set_di_upload (m : direction) (x : bool) : direction := mk_direction x (m.(di_number)).
(** assignment to the field number, nmdc/msg_files.go:209-212 *)
Definition set_di_number (m : direction) (x : N) : direction := mk_direction (m.(di_upload)) x.
(** the zero value, nmdc/msg_files.go:209-212 *)
Definition direction0 : direction := mk_direction false 0.

(** nmdc/msg_files.go:218-227: the number is converted from uint to int. *)
Definition direction_marshal (m : direction) : bytes :=
  (if m.(di_upload) then B "Upload" else B "Download") ++ B " " ++ format_int (to_int64 m.(di_number)).

(** nmdc/msg_files.go:229-253 *)
Definition direction_unmarshal (m : direction) (data : bytes) : direction * res unit :=
  match cut " " data with
  | None => (m, Err (EText "Direction: missing field 1"))
  | Some (dir, data) =>
      let number (m : direction) :=
        match parse_uint_trim data with
        | Err _ => (m, Err (EText "Direction: unable to parse field 2"))
        | Panic => (m, Panic)
        | Ok n => if ((n <? 1) || (32767 <? n))%N then (m, Err (EText "Direction: number outside range"))
                  else (set_di_number m n, Ok tt)
        end in
      if bytes_eqb dir (B "Download") then number (set_di_upload m false)
      else if bytes_eqb dir (B "Upload") then number (set_di_upload m true)
      else (m, Err (EText "Direction: invalid direction field"))
  end.

(** ** Search *)
(** nmdc/msg_search.go:38-49 *)
Record search := mk_search { se_address : bytes; se_user : bytes; se_restricted : bool; se_ismax : bool; se_size : N; se_dtype : N; se_pattern : bytes; se_tth : option bytes }.
(** assignment to the field address, nmdc/msg_search.go:38-49 *)
Definition set_se_address (m : search) (x : bytes) : search := mk_search x (m.(se_user)) (m.(se_restricted)) (m.(se_ismax)) (m.(se_size)) (m.(se_dtype)) (m.(se_pattern)) (m.(se_tth)).
(** assignment to the field user, nmdc/msg_search.go:38-49 *)
Definition set_se_user (m : search) (x : bytes) : search := mk_search (m.(se_address)) x (m.(se_restricted)) (m.(se_ismax)) (m.(se_size)) (m.(se_dtype)) (m.(se_pattern)) (m.(se_tth)).
(** assignment to the field restricted, nmdc/msg_search.go:38-49 *)
Definition set_se_restricted (m : search) (x : bool) : search := mk_search (m.(se_address)) (m.(se_user)) x (m.(se_ismax)) (m.(se_size)) (m.(se_dtype)) (m.(se_pattern)) (m.(se_tth)).
(** assignment to the field ismax, nmdc/msg_search.go:38-49 *)
Definition set_se_ismax (m : search) (x : bool) : search := mk_search (m.(se_address)) (m.(se_user)) (m.(se_restricted)) x (m.(se_size)) (m.(se_dtype)) (m.(se_pattern)) (m.(se_tth)).
(** assignment to the field size, nmdc/msg_search.go:38-49 *)
Definition set_se_size (m : search) (x : N) : search := mk_search (m.(se_address)) (m.(se_user)) (m.(se_restricted)) (m.(se_ismax)) x (m.(se_dtype)) (m.(se_pattern)) (m.(se_tth)).
(** assignment to the field dtype, nmdc/msg_search.go:38-49 *)
Definition set_se_dtype (m : search) (x : N) : search := mk_search (m.(se_address)) (m.(se_user)) (m.(se_restricted)) (m.(se_ismax)) (m.(se_size)) x (m.(se_pattern)) (m.(se_tth)).
(** assignment to the field pattern, nmdc/msg_search.go:38-49 *)
Definition set_se_pattern (m : search) (x : bytes) : search := mk_search (m.(se_address)) (m.(se_user)) (m.(se_restricted)) (m.(se_ismax)) (m.(se_size)) (m.(se_dtype)) x (m.(se_tth)).
(** assignment to the field tth, nmdc/msg_search.go:38-49 *)
Definition set_se_tth (m : search) (x : option bytes) : search := mk_search (m.(se_address)) (m.(se_user)) (m.(se_restricted)) (m.(se_ismax)) (m.(se_size)) (m.(se_dtype)) (m.(se_pattern)) x.
(** the zero value, nmdc/msg_search.go:38-49 *)
Definition search0 : search := mk_search [] [] false false 0 0 [] None.

(** DataTypeAny, nmdc/msg_search.go:23 *)
Definition data_any : N := 1.
(** DataTypeTTH, nmdc/msg_search.go:31 *)
Definition data_tth : N := 9.

(** bytes.Replace / strings.Replace of one byte by another, nmdc/msg_search.go:102,200 *)
Definition replace_byte (a b : byte) (s : bytes) : bytes := map (fun c => if beq c a then b else c) s.

(** A hash written in base32 with the prefix "TTH:" into a buffer of 4+39 bytes,
    nmdc/msg_search.go:92-96,267-271. *)
Definition marshal_tth (h : bytes) : res bytes :=
  match hash_marshal_base32 (repeat x00 base32_size) h with Some b => Ok (B "TTH:" ++ b) | None => Panic end.

(** nmdc/msg_search.go:55-106 *)
Definition search_marshal (enc : codec) (m : search) : res bytes :=
  do who <- match m.(se_address) with
            | [] => do n <- name_marshal enc m.(se_user); Ok (B "Hub:" ++ n)
            | a => Ok a
            end;
  do what <- (if (m.(se_dtype) =? data_tth)%N then
                match m.(se_tth) with
                | None => Err (EText "invalid TTH pointer")
                | Some h => marshal_tth h
                end
              else do p <- string_marshal enc m.(se_pattern); Ok (replace_byte " " "$" p));
  Ok (who ++ B " " ++
      (if m.(se_restricted) then (if m.(se_ismax) then B "T?T" else B "T?F") else B "F?T") ++
      B "?" ++ format_uint m.(se_size) ++ B "?" ++
      format_uint (if (m.(se_dtype) =? 0)%N then data_any else m.(se_dtype)) ++ B "?" ++ what).

(** nmdc/msg_search.go:205-216 *)
Definition unmarshal_flag (data : bytes) : res bool :=
  match data with
  | [c] => if beq c "T" then Ok true else if beq c "F" then Ok false else Err (EText "invalid bool flag")
  | _ => Err (EText "invalid bool flag")
  end.

(** [x.TTH = new(TTH); err := x.TTH.UnmarshalBase32(text)], nmdc/msg_search.go:189-193,385-389:
    the new hash, even on an error, and the result. *)
Definition new_tth (text : bytes) : bytes * res unit :=
  let '(r, h) := hash_unmarshal_base32 (repeat x00 hash_size) text in (h, r).

(** The last field of a search, nmdc/msg_search.go:180-202 *)
Definition search_what (dec : codec) (m : search) (field : bytes) : search * res unit :=
  if (m.(se_dtype) =? data_tth)%N then
    if has_prefix (B "TTH:") field then
      let h := skipn 4 field in
      let h := if last_is "$" h then drop_last h else h in
      let '(t, r) := new_tth h in (set_se_tth m (Some t), r)
    else (m, Err (EText "invalid TTH search"))
  else
    do s <- string_unmarshal dec field keeping m;
    (set_se_pattern m (replace_byte "$" " " s), Ok tt).

(** The size, nmdc/msg_search.go:154-170 *)
Definition search_size (m : search) (field : bytes) : search * res unit :=
  match field with
  | [] => (m, Ok tt)
  | c :: t =>
      if beq c "-" then
        do n <- parse_uint_trim t keeping m;
        (set_se_size (set_se_restricted m false) 0, Ok tt)
      else
        do n <- parse_uint_trim field keeping set_se_size m 0;
        (set_se_size m n, Ok tt)
  end.
(** nmdc/msg_search.go:129-203 *)
Definition search_string (dec : codec) (m : search) (data : bytes) : search * res unit :=
  match splitn_byte 5 "?" data with
  | [f0; f1; f2; f3; f4] =>
      do r <- unmarshal_flag f0 keeping set_se_restricted m false;
      let m := set_se_restricted m r in
      do x <- unmarshal_flag f1 keeping set_se_ismax m false;
      let m := set_se_ismax m x in
      let '(m, e) := search_size m f2 in
      do u <- e keeping m;
      do t <- parse_uint_trim f3 keeping m;
      search_what dec (set_se_dtype m t) f4
  | _ => (m, Err (EText "invalid search string"))
  end.

(** nmdc/msg_search.go:108-127 *)
Definition search_unmarshal (dec : codec) (m : search) (data : bytes) : search * res unit :=
  match cut " " data with
  | None => (m, Err (EText "invalid search command"))
  | Some (field0, field1) =>
      if has_prefix (B "Hub:") field0 then
        do n <- name_unmarshal dec (skipn 4 field0) keeping m;
        search_string dec (set_se_user m n) field1
      else search_string dec (set_se_address m field0) field1
  end.

(** ** SR *)
(** nmdc/msg_search.go:218-229 *)
Record sr := mk_sr { sr_from : bytes; sr_path : list bytes; sr_isdir : bool; sr_size : N; sr_free : Z; sr_total : Z; sr_hubname : bytes; sr_tth : option bytes; sr_hubaddr : bytes; sr_to : bytes }.
(** assignment to the field from, nmdc/msg_search.go:218-229 *)
Definition set_sr_from (m : sr) (x : bytes) : sr := mk_sr x (m.(sr_path)) (m.(sr_isdir)) (m.(sr_size)) (m.(sr_free)) (m.(sr_total)) (m.(sr_hubname)) (m.(sr_tth)) (m.(sr_hubaddr)) (m.(sr_to)).
(** assignment to the field path, nmdc/msg_search.go:218-229 *)
Definition set_sr_path (m : sr) (x : list bytes) : sr := mk_sr (m.(sr_from)) x (m.(sr_isdir)) (m.(sr_size)) (m.(sr_free)) (m.(sr_total)) (m.(sr_hubname)) (m.(sr_tth)) (m.(sr_hubaddr)) (m.(sr_to)).
(** assignment to the field isdir, nmdc/msg_search.go:218-229 *)
Definition set_sr_isdir (m : sr) (x : bool) : sr := mk_sr (m.(sr_from)) (m.(sr_path)) x (m.(sr_size)) (m.(sr_free)) (m.(sr_total)) (m.(sr_hubname)) (m.(sr_tth)) (m.(sr_hubaddr)) (m.(sr_to)).
(** assignment to the field size, nmdc/msg_search.go:218-229 *)
Definition set_sr_size (m : sr) (x : N) : sr := mk_sr (m.(sr_from)) (m.(sr_path)) (m.(sr_isdir)) x (m.(sr_free)) (m.(sr_total)) (m.(sr_hubname)) (m.(sr_tth)) (m.(sr_hubaddr)) (m.(sr_to)).
(** assignment to the field free, nmdc/msg_search.go:218-229 *)
Definition set_sr_free (m : sr) (x : Z) : sr := mk_sr (m.(sr_from)) (m.(sr_path)) (m.(sr_isdir)) (m.(sr_size)) x (m.(sr_total)) (m.(sr_hubname)) (m.(sr_tth)) (m.(sr_hubaddr)) (m.(sr_to)).
(** assignment to the field total, nmdc/msg_search.go:218-229 *)
Definition set_sr_total (m : sr) (x : Z) : sr := mk_sr (m.(sr_from)) (m.(sr_path)) (m.(sr_isdir)) (m.(sr_size)) (m.(sr_free)) x (m.(sr_hubname)) (m.(sr_tth)) (m.(sr_hubaddr)) (m.(sr_to)).
(** assignment to the field hubname, nmdc/msg_search.go:218-229 *)
Definition set_sr_hubname (m : sr) (x : bytes) : sr := mk_sr (m.(sr_from)) (m.(sr_path)) (m.(sr_isdir)) (m.(sr_size)) (m.(sr_free)) (m.(sr_total)) x (m.(sr_tth)) (m.(sr_hubaddr)) (m.(sr_to)).
(** assignment to the field tth, nmdc/msg_search.go:218-229 *)
Definition set_sr_tth (m : sr) (x : option bytes) : sr := mk_sr (m.(sr_from)) (m.(sr_path)) (m.(sr_isdir)) (m.(sr_size)) (m.(sr_free)) (m.(sr_total)) (m.(sr_hubname)) x (m.(sr_hubaddr)) (m.(sr_to)).
(** assignment to the field hubaddr, nmdc/msg_search.go:218-229 *)
Definition set_sr_hubaddr (m : sr) (x : bytes) : sr := mk_sr (m.(sr_from)) (m.(sr_path)) (m.(sr_isdir)) (m.(sr_size)) (m.(sr_free)) (m.(sr_total)) (m.(sr_hubname)) (m.(sr_tth)) x (m.(sr_to)).
(** assignment to the field to, nmdc/msg_search.go:218-229 *)
Definition set_sr_to (m : sr) (x : bytes) : sr := mk_sr (m.(sr_from)) (m.(sr_path)) (m.(sr_isdir)) (m.(sr_size)) (m.(sr_free)) (m.(sr_total)) (m.(sr_hubname)) (m.(sr_tth)) (m.(sr_hubaddr)) x.
(** the zero value, nmdc/msg_search.go:218-229 *)
Definition sr0 : sr := mk_sr [] [] false 0 0 0 [] None [] [].

(** nmdc/msg_search.go:231 *)
Definition sr_sep : byte := x05.

(** nmdc/msg_search.go:237-289 *)
Definition sr_marshal (enc : codec) (m : sr) : res bytes :=
  do n <- name_marshal enc m.(sr_from);
  match m.(sr_path) with
  | [] => Err (EText "invalid SR command: empty path")
  | path =>
      do p <- marshal_path enc true path;
      do h <- match m.(sr_tth) with
              | Some t => marshal_tth t
              | None => string_marshal enc m.(sr_hubname)
              end;
      do to <- match m.(sr_to) with
               | [] => Ok []
               | t => do b <- name_marshal enc t; Ok (sr_sep :: b)
               end;
      Ok (n ++ B " " ++ p ++
          (if m.(sr_isdir) then [] else sr_sep :: format_uint m.(sr_size)) ++
          B " " ++ format_int m.(sr_free) ++ B "/" ++ format_int m.(sr_total) ++ [sr_sep] ++
          h ++ B " (" ++ m.(sr_hubaddr) ++ B ")" ++ to)
  end.

(** The backward scan for slots, nmdc/msg_search.go:316-327, over the reversed text: whether a
    '/' was seen, and the text before the first other byte and after it. *)
Fixpoint sr_scan (r : bytes) (seen : bool) (acc : bytes) : bool * option (bytes * bytes) :=
  match r with
  | [] => (seen, None)
  | c :: r' =>
      if beq c "/" then sr_scan r' true (c :: acc)
      else if ((b2n c <? 48) || (57 <? b2n c))%N then (seen, Some (rev r', acc))
      else sr_scan r' seen (c :: acc)
  end.

(** The end of a result after the hash or hub name, nmdc/msg_search.go:404-421. *)
Definition sr_tail (dec : codec) (m : sr) (data : bytes) : sr * res unit :=
  match cut ")" data with
  | None => (m, Err (EText "invalid SR command: missing hub address"))
  | Some (addr, data) =>
      let m := set_sr_hubaddr m addr in
      match data with
      | [] => (m, Ok tt)
      | [_] => (m, Err (EText "invalid SR command: missing target"))
      | c :: data =>
          if beq c sr_sep then
            do n <- name_unmarshal dec data keeping m;
            (set_sr_to m n, Ok tt)
          else (m, Err (EText "invalid SR command: missing target"))
      end
  end.

(** The hash or hub name, nmdc/msg_search.go:377-403. *)
Definition sr_hub (dec : codec) (m : sr) (data : bytes) : sr * res unit :=
  if has_prefix (B "TTH:") data then
    let data := skipn 4 data in
    if has_prefix (B " (") (skipn base32_size data) then
      let '(t, r) := new_tth (firstn base32_size data) in
      let m := set_sr_tth m (Some t) in
      do u <- r keeping m;
      sr_tail dec m (skipn (base32_size + 2) data)
    else (m, Err (EText "invalid SR command: invalid TTH search"))
  else
    match cut_seq (B " (") data with
    | None => (m, Err (EText "invalid SR command: missing TTH or hub name"))
    | Some (h, data) =>
        do s <- string_unmarshal dec h keeping m;
        sr_tail dec (set_sr_hubname m s) data
    end.

(** Path and slots, nmdc/msg_search.go:358-375. *)
Definition sr_slots (dec : codec) (m : sr) (path slots data : bytes) : sr * res unit :=
  do u <- string_unmarshal dec path keeping m;
  let m := set_sr_path m (split_byte "\" path) in
  match cut "/" slots with
  | None => (m, Err (EText "invalid SR command: missing slots separator"))
  | Some (f, t) =>
      do free <- atoi_trim f keeping set_sr_free m (atoi_value f);
      let m := set_sr_free m free in
      do total <- atoi_trim t keeping set_sr_total m (atoi_value t);
      sr_hub dec (set_sr_total m total) data
  end.

(** nmdc/msg_search.go:291-422 *)
Definition sr_unmarshal (dec : codec) (m : sr) (data : bytes) : sr * res unit :=
  match cut " " data with
  | None => (m, Err (EText "invalid SR command: missing name"))
  | Some (n, data) =>
      do name <- name_unmarshal dec n keeping m;
      let m := set_sr_from m name in
      match cut sr_sep data with
      | None => (m, Err (EText "invalid SR command: missing separator"))
      | Some (maybe, data) =>
          match sr_scan (rev maybe) false [] with
          | (true, Some (path, slots)) =>
              sr_slots dec (set_sr_size (set_sr_isdir m true) 0) path slots data
          | _ =>
              let m := set_sr_isdir m false in
              match cut sr_sep data with
              | None => (m, Err (EText "invalid SR command: missing size"))
              | Some (sizeslots, data) =>
                  match cut " " sizeslots with
                  | None => (m, Err (EText "invalid SR command: missing size separator"))
                  | Some (size, slots) =>
                      do n <- parse_uint_trim size keeping set_sr_size m 0;
                      sr_slots dec (set_sr_size m n) maybe slots data
                  end
              end
          end
      end
  end.

(** ** TTHSearchActive *)
(** nmdc/msg_search.go:425-428 *)
Record sa := mk_sa { sa_tth : bytes; sa_address : bytes }.
(** assignment to the field tth, nmdc/msg_search.go:425-428 *)
Definition set_sa_tth (m : sa) (x : bytes) : sa := mk_sa x (m.(sa_address)).
(** assignment to the field address, nmdc/msg_search.go:425-428 *)
Definition set_sa_address (m : sa) (x : bytes) : sa := mk_sa (m.(sa_tth)) x.
(** the zero value, nmdc/msg_search.go:425-428 *)
Definition sa0 : sa := mk_sa (repeat x00 hash_size) [].

(** A hash in a buffer of 40 bytes whose last byte becomes a space, nmdc/msg_search.go:435-440,468-473 *)
Definition marshal_tth_space (h : bytes) : res bytes :=
  match hash_marshal_base32 (repeat x00 (base32_size + 1)) h with
  | Some b => Ok (firstn base32_size b ++ B " ")
  | None => Panic
  end.

(** nmdc/msg_search.go:434-443 *)
Definition sa_marshal (m : sa) : res bytes :=
  do t <- marshal_tth_space m.(sa_tth); Ok (t ++ m.(sa_address)).
(** nmdc/msg_search.go:445-455 *)
Definition sa_unmarshal (m : sa) (data : bytes) : sa * res unit :=
  match skipn base32_size data with
  | c :: addr =>
      if beq c " " then
        let '(r, h) := hash_unmarshal_base32 m.(sa_tth) (firstn base32_size data) in
        let m := set_sa_tth m h in
        do u <- r keeping m;
        (set_sa_address m addr, Ok tt)
      else (m, Err (EText "missing separator in SA command"))
  | [] => (m, Err (EText "missing separator in SA command"))
  end.

(** ** TTHSearchPassive *)
(** nmdc/msg_search.go:458-461 *)
Record sp := mk_sp { sp_tth : bytes; sp_user : bytes }.
(** assignment to the field tth, nmdc/msg_search.go:458-461 *)
Definition set_sp_tth (m : sp) (x : bytes) : sp := mk_sp x (m.(sp_user)).
(** assignment to the field user, nmdc/msg_search.go:458-461 *)
Definition set_sp_user (m : sp) (x : bytes) : sp := mk_sp (m.(sp_tth)) x.
(** the zero value, nmdc/msg_search.go:458-461 *)
Definition sp0 : sp := mk_sp (repeat x00 hash_size) [].

(** nmdc/msg_search.go:467-478 *)
Definition sp_marshal (enc : codec) (m : sp) : res bytes :=
  do t <- marshal_tth_space m.(sp_tth);
  do n <- name_marshal enc m.(sp_user);
  Ok (t ++ n).
(** nmdc/msg_search.go:480-494 *)
Definition sp_unmarshal (dec : codec) (m : sp) (data : bytes) : sp * res unit :=
  match skipn base32_size data with
  | c :: user =>
      if beq c " " then
        let '(r, h) := hash_unmarshal_base32 m.(sp_tth) (firstn base32_size data) in
        let m := set_sp_tth m h in
        do u <- r keeping m;
        do n <- name_unmarshal dec user keeping m;
        (set_sp_user m n, Ok tt)
      else (m, Err (EText "missing separator in SP command"))
  | [] => (m, Err (EText "missing separator in SP command"))
  end.
