(** nmdc/msg_user.go: MyINFO.  Conventions as in NmdcChat.v and NmdcFiles.v. *)
From Verif Require Import Base Num Utf8 NmdcText NmdcChat.

(** Extra (a map[string]string) is a list of keys and values: the order in which the encoder
    happens to iterate over the map (unspecified in Go), respectively the order in which the
    decoder first sees the keys. *)
(** nmdc/msg_user.go:101-115 *)
Record myinfo := mk_myinfo { mi_name : bytes; mi_desc : bytes; mi_client : bytes; mi_version : bytes; mi_mode : byte; mi_hubs_normal : Z; mi_hubs_reg : Z; mi_hubs_op : Z; mi_slots : Z; mi_extra : list (bytes * bytes); mi_conn : bytes; mi_flag : byte; mi_email : bytes; mi_share : N }.
(** assignment to the field name, nmdc/msg_user.go:101-115 *)
Definition set_mi_name (m : myinfo) (x : bytes) : myinfo := mk_myinfo x (m.(mi_desc)) (m.(mi_client)) (m.(mi_version)) (m.(mi_mode)) (m.(mi_hubs_normal)) (m.(mi_hubs_reg)) (m.(mi_hubs_op)) (m.(mi_slots)) (m.(mi_extra)) (m.(mi_conn)) (m.(mi_flag)) (m.(mi_email)) (m.(mi_share)).
(** assignment to the field desc, nmdc/msg_user.go:101-115 *)
Definition set_mi_desc (m : myinfo) (x : bytes) : myinfo := mk_myinfo (m.(mi_name)) x (m.(mi_client)) (m.(mi_version)) (m.(mi_mode)) (m.(mi_hubs_normal)) (m.(mi_hubs_reg)) (m.(mi_hubs_op)) (m.(mi_slots)) (m.(mi_extra)) (m.(mi_conn)) (m.(mi_flag)) (m.(mi_email)) (m.(mi_share)).
(** assignment to the field client, nmdc/msg_user.go:101-115 *)
Definition set_mi_client (m : myinfo) (x : bytes) : myinfo := mk_myinfo (m.(mi_name)) (m.(mi_desc)) x (m.(mi_version)) (m.(mi_mode)) (m.(mi_hubs_normal)) (m.(mi_hubs_reg)) (m.(mi_hubs_op)) (m.(mi_slots)) (m.(mi_extra)) (m.(mi_conn)) (m.(mi_flag)) (m.(mi_email)) (m.(mi_share)).
(** assignment to the field version, nmdc/msg_user.go:101-115 *)
Definition set_mi_version (m : myinfo) (x : bytes) : myinfo := mk_myinfo (m.(mi_name)) (m.(mi_desc)) (m.(mi_client)) x (m.(mi_mode)) (m.(mi_hubs_normal)) (m.(mi_hubs_reg)) (m.(mi_hubs_op)) (m.(mi_slots)) (m.(mi_extra)) (m.(mi_conn)) (m.(mi_flag)) (m.(mi_email)) (m.(mi_share)).
(** assignment to the field mode, nmdc/msg_user.go:101-115 *)
Definition set_mi_mode (m : myinfo) (x : byte) : myinfo := mk_myinfo (m.(mi_name)) (m.(mi_desc)) (m.(mi_client)) (m.(mi_version)) x (m.(mi_hubs_normal)) (m.(mi_hubs_reg)) (m.(mi_hubs_op)) (m.(mi_slots)) (m.(mi_extra)) (m.(mi_conn)) (m.(mi_flag)) (m.(mi_email)) (m.(mi_share)).
(** assignment to the field hubs_normal, nmdc/msg_user.go:101-115 *)
Definition set_mi_hubs_normal (m : myinfo) (x : Z) : myinfo := mk_myinfo (m.(mi_name)) (m.(mi_desc)) (m.(mi_client)) (m.(mi_version)) (m.(mi_mode)) x (m.(mi_hubs_reg)) (m.(mi_hubs_op)) (m.(mi_slots)) (m.(mi_extra)) (m.(mi_conn)) (m.(mi_flag)) (m.(mi_email)) (m.(mi_share)).
(** assignment to the field hubs_reg, nmdc/msg_user.go:101-115 *)
Definition set_mi_hubs_reg (m : myinfo) (x : Z) : myinfo := mk_myinfo (m.(mi_name)) (m.(mi_desc)) (m.(mi_client)) (m.(mi_version)) (m.(mi_mode)) (m.(mi_hubs_normal)) x (m.(mi_hubs_op)) (m.(mi_slots)) (m.(mi_extra)) (m.(mi_conn)) (m.(mi_flag)) (m.(mi_email)) (m.(mi_share)).
(** assignment to the field hubs_op, nmdc/msg_user.go:101-115 *)
Definition set_mi_hubs_op (m : myinfo) (x : Z) : myinfo := mk_myinfo (m.(mi_name)) (m.(mi_desc)) (m.(mi_client)) (m.(mi_version)) (m.(mi_mode)) (m.(mi_hubs_normal)) (m.(mi_hubs_reg)) x (m.(mi_slots)) (m.(mi_extra)) (m.(mi_conn)) (m.(mi_flag)) (m.(mi_email)) (m.(mi_share)).
(** assignment to the field slots, nmdc/msg_user.go:101-115 *)
Definition set_mi_slots (m : myinfo) (x : Z) : myinfo := mk_myinfo (m.(mi_name)) (m.(mi_desc)) (m.(mi_client)) (m.(mi_version)) (m.(mi_mode)) (m.(mi_hubs_normal)) (m.(mi_hubs_reg)) (m.(mi_hubs_op)) x (m.(mi_extra)) (m.(mi_conn)) (m.(mi_flag)) (m.(mi_email)) (m.(mi_share)).
(** assignment to the field extra, nmdc/msg_user.go:101-115 *)
Definition set_mi_extra (m : myinfo) (x : list (bytes * bytes)) : myinfo := mk_myinfo (m.(mi_name)) (m.(mi_desc)) (m.(mi_client)) (m.(mi_version)) (m.(mi_mode)) (m.(mi_hubs_normal)) (m.(mi_hubs_reg)) (m.(mi_hubs_op)) (m.(mi_slots)) x (m.(mi_conn)) (m.(mi_flag)) (m.(mi_email)) (m.(mi_share)).
(** assignment to the field conn, nmdc/msg_user.go:101-115 *)
Definition set_mi_conn (m : myinfo) (x : bytes) : myinfo := mk_myinfo (m.(mi_name)) (m.(mi_desc)) (m.(mi_client)) (m.(mi_version)) (m.(mi_mode)) (m.(mi_hubs_normal)) (m.(mi_hubs_reg)) (m.(mi_hubs_op)) (m.(mi_slots)) (m.(mi_extra)) x (m.(mi_flag)) (m.(mi_email)) (m.(mi_share)).
(** assignment to the field flag, nmdc/msg_user.go:101-115 *)
Definition set_mi_flag (m : myinfo) (x : byte) : myinfo := mk_myinfo (m.(mi_name)) (m.(mi_desc)) (m.(mi_client)) (m.(mi_version)) (m.(mi_mode)) (m.(mi_hubs_normal)) (m.(mi_hubs_reg)) (m.(mi_hubs_op)) (m.(mi_slots)) (m.(mi_extra)) (m.(mi_conn)) x (m.(mi_email)) (m.(mi_share)).
(** assignment to the field email, nmdc/msg_user.go:101-115 *)
Definition set_mi_email (m : myinfo) (x : bytes) : myinfo := mk_myinfo (m.(mi_name)) (m.(mi_desc)) (m.(mi_client)) (m.(mi_version)) (m.(mi_mode)) (m.(mi_hubs_normal)) (m.(mi_hubs_reg)) (m.(mi_hubs_op)) (m.(mi_slots)) (m.(mi_extra)) (m.(mi_conn)) (m.(mi_flag)) x (m.(mi_share)).
(** assignment to the field share, nmdc/msg_user.go:101-115 *)
Definition set_mi_share (m : myinfo) (x : N) : myinfo := mk_myinfo (m.(mi_name)) (m.(mi_desc)) (m.(mi_client)) (m.(mi_version)) (m.(mi_mode)) (m.(mi_hubs_normal)) (m.(mi_hubs_reg)) (m.(mi_hubs_op)) (m.(mi_slots)) (m.(mi_extra)) (m.(mi_conn)) (m.(mi_flag)) (m.(mi_email)) x.
(** the zero value, nmdc/msg_user.go:101-115 *)
Definition myinfo0 : myinfo := mk_myinfo [] [] [] [] x00 0 0 0 0 [] [] x00 [] 0.

(** m[k] = v, nmdc/msg_user.go:330-333,383-386 *)
Fixpoint map_set (k v : bytes) (l : list (bytes * bytes)) : list (bytes * bytes) :=
  match l with
  | [] => [(k, v)]
  | (k', v') :: r => if bytes_eqb k k' then (k, v) :: r else (k', v') :: map_set k v r
  end.

(** The extra fields, nmdc/msg_user.go:158-165 *)
Definition extra_text (l : list (bytes * bytes)) : bytes :=
  flat_map (fun kv => B "," ++ fst kv ++ B ":" ++ snd kv) l.

(** The mode letter, nmdc/msg_user.go:141-145 *)
Definition mode_byte (m : byte) : byte := if (beq m x00 || beq m " ")%bool then " "%byte else m.
(** The tag from '<' up to '>', nmdc/msg_user.go:130-168.  The scratch array [b] shared with
    [bi] changes nothing: byte 0 of [bi] is already ',' when b[0] is set. *)
Definition tag_text (m : myinfo) : bytes :=
  B "<" ++ m.(mi_client) ++ B " V:" ++ m.(mi_version) ++
  B ",M:" ++ [mode_byte m.(mi_mode)] ++
  B ",H:" ++ format_int m.(mi_hubs_normal) ++ B "/" ++ format_int m.(mi_hubs_reg) ++ B "/" ++ format_int m.(mi_hubs_op) ++
  B ",S:" ++ format_int m.(mi_slots) ++
  extra_text m.(mi_extra) ++ B ">".

(** nmdc/msg_user.go:121-193 *)
Definition myinfo_marshal (enc : codec) (m : myinfo) : res bytes :=
  do n <- name_marshal enc m.(mi_name);
  do d <- string_marshal enc m.(mi_desc);
  do c <- string_marshal enc m.(mi_conn);
  do e <- string_marshal enc m.(mi_email);
  Ok (B "$ALL " ++ n ++ B " " ++ d ++ tag_text m ++ B "$ $" ++
      c ++ [if beq m.(mi_flag) x00 then x01 else m.(mi_flag)] ++ B "$" ++
      e ++ B "$" ++ format_uint m.(mi_share) ++ B "$").

(** string(ckey) for a byte: the UTF-8 text of that code point, nmdc/msg_user.go:386 *)
Definition byte_string (c : byte) : bytes := encode_rune (b2n c).

(** 'a'..: ckey -= 32 above 'Z', nmdc/msg_user.go:336-339 *)
Definition upper_key (c : byte) : byte := if (90 <? b2n c)%N then n2b (b2n c - 32) else c.

(** One "key:value" field of the tag, nmdc/msg_user.go:329-387 *)
Definition tag_value (m : myinfo) (bkey val : bytes) : myinfo * res unit :=
  match bkey with
  | [c] =>
      let ckey := upper_key c in
      if beq ckey "V" then (set_mi_version m val, Ok tt)
      else if beq ckey "M" then
        (set_mi_mode m (match val with [x] => x | _ => x00 end), Ok tt)
      else if beq ckey "H" then
        match val with
        | [] => (set_mi_hubs_normal m 1, Ok tt)
        | _ =>
            if contains_byte "/" val then
              match split_byte "/" val with
              | [a; b; c] =>
                  do x <- atoi_trim a keeping set_mi_hubs_normal m (atoi_value a);
                  let m := set_mi_hubs_normal m x in
                  do y <- atoi_trim b keeping set_mi_hubs_reg m (atoi_value b);
                  let m := set_mi_hubs_reg m y in
                  do z <- atoi_trim c keeping set_mi_hubs_op m (atoi_value c);
                  (set_mi_hubs_op m z, Ok tt)
              | _ => (m, Err (EText "invalid hubs counts"))
              end
            else
              do x <- atoi_trim val keeping set_mi_hubs_normal m (atoi_value val);
              (set_mi_hubs_normal m x, Ok tt)
        end
      else if beq ckey "S" then
        match atoi_trim val with
        | Ok x => (set_mi_slots m x, Ok tt)
        | Err _ => (set_mi_slots m (atoi_value val), Err (EText "invalid slots"))
        | Panic => (m, Panic)
        end
      else (set_mi_extra m (map_set (byte_string ckey) val m.(mi_extra)), Ok tt)
  | _ => (set_mi_extra m (map_set bkey val m.(mi_extra)), Ok tt)
  end.

(** The loop over the fields of the tag, nmdc/msg_user.go:307-388; [first] is r == 0. *)
Fixpoint tag_fields (m : myinfo) (client : bytes) (first : bool) (fields : list bytes) : myinfo * bytes * res unit :=
  match fields with
  | [] => (m, client, Ok tt)
  | [] :: r => tag_fields m client false r
  | field :: r =>
      match cut ":" field with
      | None => if first then tag_fields m field false r
                else (m, client, Err (EText "unknown field name in tag"))
      | Some ([], _) => (m, client, Err (EText "unknown field name in tag"))
      | Some (bkey, val) =>
          match tag_value m bkey val with
          | (m, Ok _) => tag_fields m client false r
          | (m, e) => (m, client, e)
          end
      end
  end.

(** nmdc/msg_user.go:295-391: the loop splits the tag at every comma, and an empty tag has no
    rounds. *)
Definition unmarshal_tag (m : myinfo) (tag : bytes) : myinfo * res unit :=
  let '(client, tag) :=
    match cut_seq (B " V:") tag with
    | Some (c, t) => (c, B "V:" ++ t)
    | None => match cut_seq (B " v:") tag with
              | Some (c, t) => (c, B "v:" ++ t)
              | None => ([], tag)
              end
    end in
  let '(m, client, e) := tag_fields (set_mi_extra m []) client true (split_byte "," tag) in
  do u <- e keeping m;
  (set_mi_client m client, Ok tt).

(** The first field after the name: description and tag, nmdc/msg_user.go:230-255; the result
    tells whether there was a tag. *)
Definition myinfo_desc (dec : codec) (m : myinfo) (field : bytes) : myinfo * res bool :=
  let m := set_mi_mode m x00 in
  match last_cut "<" field with
  | None =>
      do s <- string_unmarshal dec field keeping m;
      (set_mi_desc m s, Ok false)
  | Some (desc, tag) =>
      match tag with
      | [] => (m, Err (EText "empty info tag"))
      | _ =>
          let tag := if last_is ">" tag then drop_last tag else tag in
          let '(m, e) := unmarshal_tag m tag in
          do u <- e keeping m;
          do s <- string_unmarshal dec desc keeping m;
          (set_mi_desc m s, Ok true)
      end
  end.

(** Email and share size, nmdc/msg_user.go:279-292 *)
Definition myinfo_end (dec : codec) (m : myinfo) (f3 f4 : bytes) : myinfo * res unit :=
  do e <- string_unmarshal dec f3 keeping m;
  let m := set_mi_email m e in
  match f4 with
  | [] => (m, Ok tt)
  | _ => (set_mi_share m (match parse_uint_trim f4 with Ok n => n | _ => 0%N end), Ok tt)
  end.

(** The other fields, nmdc/msg_user.go:257-292 *)
Definition myinfo_rest (dec : codec) (m : myinfo) (hastag : bool) (f1 f2 f3 f4 : bytes) : myinfo * res unit :=
  match f1 with
  | [md] =>
      let m := if hastag then m else set_mi_mode m (if beq md " " then x00 else md) in
      match rev f2 with
      | [] => myinfo_end dec m f3 f4
      | fl :: _ =>
          let m := set_mi_flag m fl in
          do s <- string_unmarshal dec (drop_last f2) keeping m;
          myinfo_end dec (set_mi_conn m s) f3 f4
      end
  | _ => (m, Err (EText "unknown leacy user mode"))
  end.

(** nmdc/msg_user.go:195-293.  Exactly five '$' give six fields, the last of which is not used. *)
Definition myinfo_unmarshal (dec : codec) (m : myinfo) (data : bytes) : myinfo * res unit :=
  if has_prefix (B "$ALL ") data then
    match cut " " (skipn 5 data) with
    | None => (m, Err (EText "invalid info command: no separators"))
    | Some (n, data) =>
        do name <- name_unmarshal dec n keeping m;
        let m := set_mi_name m name in
        match split_byte "$" data with
        | [f0; f1; f2; f3; f4; _] =>
            let '(m, r) := myinfo_desc dec m f0 in
            do hastag <- r keeping m;
            myinfo_rest dec m hastag f1 f2 f3 f4
        | _ => (m, Err (EText "invalid info command"))
        end
    end
  else (m, Err (EText "invalid info command: wrong prefix")).

(** UserFlag.IsSet, nmdc/msg_user.go:78-80 *)
Definition flag_is_set (f f2 : byte) : bool := negb (N.land (b2n f) (b2n f2) =? 0)%N.
